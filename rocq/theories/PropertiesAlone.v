(** * PropertiesAlone: C74 - each source of a command is converted as if it were alone. *)
From Coq Require Import Permutation Lia.
From Verif Require Import PyBase PyDict PyVal FramerModel MsmModel DecoderModel JsonModel MargoModel PrinterModel PrinterSpec
  MainModel MainSpec PropertiesPrinter PropertiesMain PropertiesFiles ControlsModel ControlsSpec PropertiesControls SessionModel SessionSpec SessionProofs
  TestData PropertiesSession PropertiesCrash PropertiesAgain.
Local Open Scope string_scope.
Local Open Scope list_scope.
Local Open Scope Z_scope.

Section Alone.
Variables (mode : string) (ctl : option boxed_controls).

(** A conversion changes the content of a path by what this content was, what was in the place
    of the work folder, and the source. *)
Lemma log_pointwise l m (f g : fs) p : f p = g p -> log l m f p = log l m g p.
Proof.
  intros E. unfold log. destruct (lg_ready l); [|exact E]. destruct (to_file (fst m)); [|exact E].
  revert f g E. induction (lg_files l) as [|x r IH]; intros f g E; [exact E|]. cbn [fold_left]. apply IH. unfold append_to. now rewrite E.
Qed.
Lemma log_all_pointwise l ms p : forall f g : fs, f p = g p -> log_all l ms f p = log_all l ms g p.
Proof. unfold log_all. induction ms as [|m ms IH]; intros f g E; [exact E|]. cbn [fold_left]. apply IH. now apply log_pointwise. Qed.
Lemma put_pointwise fld files (f g : fs) p : f p = g p -> put fld files f p = put fld files g p.
Proof. intros E. unfold put. now rewrite E. Qed.

Lemma one_pointwise lk f g l src : f (work_folder src mode) = g (work_folder src mode) -> f src = g src ->
  let '(f1, l1, r1) := convert_one mode ctl lk f l src in
  let '(g1, l2, r2) := convert_one mode ctl lk g l src in
  r1 = r2 /\ l1 = l2 /\ forall p, f p = g p -> f1 p = g1 p.
Proof.
  intros EF ES. unfold convert_one, create_work_folder. rewrite <- EF. destruct (f (work_folder src mode)); [auto|].
  destruct (lk_rmtree lk) as [keep|].
  { split; [reflexivity|]. split; [reflexivity|]. intros p E. now rewrite E. }
  assert (RP : forall p, f p = g p -> rmtree (work_folder src mode) f p = rmtree (work_folder src mode) g p) by (intros p E; unfold rmtree; now rewrite E).
  pose proof (RP src ES) as ES'. set (F := rmtree (work_folder src mode) f) in *. set (G := rmtree (work_folder src mode) g) in *. clearbody F G.
  destruct (lk_mkdir lk); [|auto].
  assert (IN : exists F' G' l' r', init_logger lk F l (log_path mode src) = (F', l', r') /\ init_logger lk G l (log_path mode src) = (G', l', r') /\
     forall p, F p = G p -> F' p = G' p).
  { unfold init_logger. assert (SP : forall c p, F p = G p -> fs_set F (log_path mode src) c p = fs_set G (log_path mode src) c p).
    { intros c p E. unfold fs_set. now rewrite E. }
    destruct (lk_log lk) as [[]|].
    - destruct (init_2CH l (log_path mode src)) as [l' r']. eexists _, _, _, _. split; [reflexivity|]. split; [reflexivity|]. apply SP.
    - eexists _, _, _, _. split; [reflexivity|]. split; [reflexivity|]. auto.
    - eexists _, _, _, _. split; [reflexivity|]. split; [reflexivity|]. apply SP. }
  destruct IN as (F' & G' & l' & r' & E1 & E2 & S'). rewrite E1, E2. clear E1 E2. destruct r' as [u|e]; [|auto].
  assert (Q : forall p, f p = g p -> F' p = G' p) by auto.
  destruct ctl as [box|]; [|split; [reflexivity|split; [reflexivity|intros p E; now apply log_pointwise, Q]]].
  destruct (factory mode true (lk_os lk) box) as [[c|]|e].
  - rewrite (S' src ES'). destruct (decode_rtcm_file _ _ _ _) as [s [b|e]].
    + split; [reflexivity|]. split; [reflexivity|]. intros p E. now apply log_pointwise, log_all_pointwise, put_pointwise, Q.
    + split; [reflexivity|]. split; [reflexivity|]. intros p E. now apply log_all_pointwise, put_pointwise, Q.
  - split; [reflexivity|]. split; [reflexivity|]. intros p E. now apply log_pointwise, log_all_pointwise, Q.
  - split; [reflexivity|]. split; [reflexivity|]. intros p E. now apply log_all_pointwise, Q.
Qed.

(** The source [j] alone, on the disk [f0]: outcome [o], and the files of its work folder as in [f']. *)
Definition alone_as (f0 f' : fs) (j : path * luck) (o : outcome) : Prop :=
  exists g, convert_one mode ctl (snd j) f0 logger_init (fst j) = (g, logger_init, Ok o) /\
    forall p, inside (work_folder (fst j) mode) p = true -> g p = f' p.
(** Of the paths that matter to [j], [f] and [f0] have the same. *)
Definition untouched (f0 f : fs) (j : path * luck) : Prop :=
  forall p, p = fst j \/ p = work_folder (fst j) mode \/ inside (work_folder (fst j) mode) p = true -> f p = f0 p.

Lemma one_untouched f0 f all x y : independent mode all -> In (fst x) all -> In (fst y) all -> fst x <> fst y ->
  forall f1 l1 r, convert_one mode ctl (snd x) f logger_init (fst x) = (f1, l1, r) -> untouched f0 f y -> untouched f0 f1 y.
Proof.
  intros IND X Y N f1 l1 r E U p H. rewrite <- (U p H). apply (one_outside _ _ _ _ _ _ _ _ _ E).
  destruct (IND (fst x) (fst y) X Y) as ([Q|SEP] & NI); [contradiction|]. destruct H as [->|[->|H]].
  - exact NI.
  - exact (proj1 (proj2 SEP)).
  - destruct (inside (work_folder (fst x) mode) p) eqn:I; [|reflexivity]. exfalso. apply N.
    exact (in_two mode all (fst x) (fst y) p IND X Y I H).
Qed.

Lemma loop_alone f0 : forall jobs f, NoDup (map fst jobs) -> independent mode (map fst jobs) -> (forall j, In j jobs -> untouched f0 f j) ->
  let '(f', l', (outs, x)) := convert_loop mode ctl f logger_init jobs in
  (x = None -> Forall2 (alone_as f0 f') jobs outs) /\
  ((forall j, In j jobs -> exists g l o, convert_one mode ctl (snd j) f0 logger_init (fst j) = (g, l, Ok o)) -> x = None).
Proof.
  induction jobs as [|[src lk] jobs IH]; intros f ND IND U; cbn [convert_loop].
  { split; [intros _; constructor|reflexivity]. }
  cbn [map fst] in ND, IND. inversion ND as [|? ? NI ND']; subst.
  pose proof (U _ (or_introl eq_refl)) as U0. unfold untouched in U0. cbn [fst] in U0.
  pose proof (one_pointwise lk f f0 logger_init src (U0 _ (or_intror (or_introl eq_refl))) (U0 _ (or_introl eq_refl))) as O.
  destruct (convert_one mode ctl lk f logger_init src) as [[f1 l1] r1] eqn:E1. destruct (convert_one mode ctl lk f0 logger_init src) as [[g1 l2] r2] eqn:E2.
  destruct O as (<- & <- & PW). destruct r1 as [o|e].
  2:{ split; [discriminate|]. intros A. destruct (A (src, lk) (or_introl eq_refl)) as (g & l & o & X). cbn [fst snd] in X. congruence. }
  pose proof (one_idle _ _ _ _ _ _ _ _ E1) as ->.
  assert (IND' : independent mode (map fst jobs)) by (intros x y X Y; apply IND; now right).
  assert (U1 : forall j, In j jobs -> untouched f0 f1 j).
  { intros j I. apply (one_untouched f0 f (src :: map fst jobs) (src, lk) j IND) with (l1 := logger_init) (r := Ok o); cbn [fst snd]; auto.
    - now left.
    - right. now apply in_map.
    - intros Q. apply NI. rewrite Q. now apply in_map.
    - apply U. now right. }
  specialize (IH f1 ND' IND' U1). destruct (convert_loop mode ctl f1 logger_init jobs) as [[f2 l3] [outs x]] eqn:R. destruct IH as (I1 & I2).
  split.
  - intros ->. constructor; [|exact (I1 eq_refl)]. exists g1. split; [exact E2|]. cbn [fst]. intros p H.
    rewrite <- (PW p (U0 p (or_intror (or_intror H)))). symmetry. apply (loop_outside _ _ _ _ _ _ _ p R). intros y k J.
    destruct (inside (work_folder y mode) p) eqn:Q; [|reflexivity]. exfalso. apply NI.
    rewrite (in_two mode (src :: map fst jobs) src y p IND (or_introl eq_refl) (or_intror (in_map fst _ _ J)) H Q). exact (in_map fst _ _ J).
  - intros A. apply I2. intros j I. apply A. now right.
Qed.
End Alone.

(** For each source of a command: the command for this source only ends with the same outcome,
    and leaves the same files in the work folder of the source. *)
Theorem C74_alone : forall kord defaults user mode f jobs f' l outs n src lk,
  NoDup (map fst jobs) -> independent mode (map fst jobs) ->
  main kord defaults user mode f jobs = (f', l, (outs, None)) -> nth_error jobs n = Some (src, lk) ->
  exists o g, main kord defaults user mode f [(src, lk)] = (g, l, ([o], None)) /\ nth_error outs n = Some o /\
    forall p, inside (work_folder src mode) p = true -> g p = f' p.
Proof.
  intros kord defaults user mode f jobs f' l outs n src lk ND IND M N. unfold main in *.
  destruct (main_controls kord defaults user) as [ctl|e]; [|congruence].
  pose proof (loop_alone mode ctl f jobs f ND IND ltac:(intros j _ p _; reflexivity)) as L.
  assert (EL : l = logger_init) by exact (proj1 (loop_idle _ _ _ _ _ _ _ M)). rewrite M in L. destruct L as (L & _). specialize (L eq_refl).
  clear M ND IND. cbn [convert_loop]. revert n N. induction L as [|j o jobs outs A L IH]; intros n N; [destruct n; discriminate|].
  destruct n as [|n]; [|exact (IH n N)]. cbn [nth_error] in *. injection N as ->. destruct A as (g & E & P). cbn [fst snd] in *.
  exists o, g. rewrite E, EL. auto.
Qed.
Print Assumptions C74_alone.

(** The order in which sources are given does not matter: the disk is the same at the end, and
    each source has the same outcome. *)
Theorem C74_order : forall kord defaults user mode f jobs jobs' f' l outs,
  NoDup (map fst jobs) -> independent mode (map fst jobs) -> Permutation jobs jobs' ->
  main kord defaults user mode f jobs = (f', l, (outs, None)) ->
  exists f'' outs', main kord defaults user mode f jobs' = (f'', l, (outs', None)) /\
    (forall p, f'' p = f' p) /\ Permutation (combine jobs outs) (combine jobs' outs').
Proof.
  intros kord defaults user mode f jobs jobs' f' l outs ND IND P M. unfold main in *.
  destruct (main_controls kord defaults user) as [ctl|e]; [|congruence].
  pose proof (Permutation_map fst P) as PF.
  assert (ND' : NoDup (map fst jobs')) by exact (Permutation_NoDup PF ND).
  assert (IND' : independent mode (map fst jobs')).
  { intros x y X Y. apply IND; apply (Permutation_in _ (Permutation_sym PF)); assumption. }
  pose proof (loop_alone mode ctl f jobs f ND IND ltac:(intros j _ p _; reflexivity)) as L.
  pose proof (loop_alone mode ctl f jobs' f ND' IND' ltac:(intros j _ p _; reflexivity)) as L'.
  assert (EL : l = logger_init) by exact (proj1 (loop_idle _ _ _ _ _ _ _ M)). rewrite M in L. destruct L as (L & _). specialize (L eq_refl).
  assert (OK : forall j, In j jobs' -> exists g l o, convert_one mode ctl (snd j) f logger_init (fst j) = (g, l, Ok o)).
  { intros j I. apply (Permutation_in _ (Permutation_sym P)) in I. clear - L I. induction L as [|x o jobs outs (g & E & _) L IH]; [destruct I|].
    destruct I as [<-|I]; [|exact (IH I)]. exists g, logger_init, o. exact E. }
  destruct (convert_loop mode ctl f logger_init jobs') as [[f'' l'] [outs' x']] eqn:M'. destruct L' as (L' & X). specialize (X OK). subst x'. specialize (L' eq_refl).
  exists f'', outs'. destruct (loop_idle _ _ _ _ _ _ _ M') as (-> & _). rewrite EL. split; [reflexivity|]. split.
  - intros p. destruct (existsb (fun j => inside (work_folder (fst j) mode) p) jobs) eqn:EX.
    + apply existsb_exists in EX. destruct EX as (j & I & H).
      assert (Q : forall js os h, Forall2 (alone_as mode ctl f h) js os -> In j js -> h p = fst (fst (convert_one mode ctl (snd j) f logger_init (fst j))) p).
      { clear - H. intros js os h F. induction F as [|x o js os (g & E & A) F IH]; intros I; [destruct I|].
        destruct I as [->|I]; [|exact (IH I)]. rewrite E. cbn [fst]. symmetry. exact (A p H). }
      rewrite (Q _ _ _ L I), (Q _ _ _ L' (Permutation_in _ P I)). reflexivity.
    + assert (N : forall y k, In (y, k) jobs -> inside (work_folder y mode) p = false).
      { intros y k I. destruct (inside (work_folder y mode) p) eqn:H; [|reflexivity].
        assert (T : existsb (fun j => inside (work_folder (fst j) mode) p) jobs = true) by (apply existsb_exists; exists (y, k); auto). congruence. }
      rewrite (loop_outside _ _ _ _ _ _ _ p M N). apply (loop_outside _ _ _ _ _ _ _ p M').
      intros y k I. exact (N y k (Permutation_in _ (Permutation_sym P) I)).
  - set (oc := fun j => match convert_one mode ctl (snd j) f logger_init (fst j) with (_, _, Ok o) => o | _ => NoFolder end).
    assert (Q : forall js os h, Forall2 (alone_as mode ctl f h) js os -> combine js os = map (fun j => (j, oc j)) js).
    { intros js os h F. induction F as [|x o js os (g & E & A) F IH]; [reflexivity|]. cbn [combine map]. rewrite IH. unfold oc at 2. rewrite E. reflexivity. }
    rewrite (Q _ _ _ L), (Q _ _ _ L'). now apply Permutation_map.
Qed.
Print Assumptions C74_order.

Example C74_nonvacuous :
  NoDup (map fst sample_jobs) /\ independent "JSON" (map fst sample_jobs) /\
  snd (sample_main sample_fs) = ([Finished WithoutErrors; Finished Terminated; Finished WithoutErrors], None) /\
  snd (main ident (Parsed default_ini) None "JSON" sample_fs (rev sample_jobs)) = ([Finished WithoutErrors; Finished Terminated; Finished WithoutErrors], None) /\
  map (fst (fst (main ident (Parsed default_ini) None "JSON" sample_fs (rev sample_jobs)))) looked = map (fst (fst (sample_main sample_fs))) looked.
Proof.
  split; [|split; [exact (proj1 C73_nonvacuous)|split; [|split]; vm_compute; reflexivity]].
  cbn [sample_jobs map fst]. repeat constructor; cbn [In]; intuition discriminate.
Qed.
