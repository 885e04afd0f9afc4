(** * PropertiesCrash: C70 - what is left when the program is killed. *)
From Coq Require Import Permutation Lia.
From Verif Require Import PyBase PyDict PyFloat PyVal BitsModel FramerModel MsmModel DecoderModel JsonModel JsonFileSpec JsonFiles MargoModel MargoSpec
  PrinterModel PrinterSpec PrinterProofs MainModel MainSpec PropertiesPrinter PropertiesMain PropertiesFiles ControlsModel ControlsSpec PropertiesControls SessionModel SessionSpec SessionProofs
  TestData PropertiesSession CrashModel CrashProofs CrashRun.
Local Open Scope string_scope.
Local Open Scope list_scope.
Local Open Scope Z_scope.

(** [t] is an initial part of [u]. *)
Definition starts (t u : list Z) : Prop := exists rest, u = t ++ rest.

Lemma good_started mode env ctl c : factory mode true env ctl = Ok (Some c) -> good_run (started c).
Proof. intros F. split; [exact winv_init|exact (tame_factory _ _ _ _ F)]. Qed.
Lemma firstn_starts k t u : starts t u -> starts (firstn k t) u.
Proof. intros (r & ->). exists (skipn k t ++ r). now rewrite app_assoc, firstn_skipn. Qed.

(** One conversion, killed before its [n]-th operation: each file that is found on the disk
    holds an initial part of what the same file holds when the conversion is left alone. *)
Theorem C70_conversion : forall mode env ctl c ord src n files,
  factory mode true env ctl = Ok (Some c) -> walk ord ->
  on_disk files (output_files (r_world (killed ord no_faults n src (started c)))) ->
  forall name t, sget files name = Some t ->
  exists u, sget (output_files (r_world (fst (decode_rtcm_file ord no_faults src (started c))))) name = Some u /\ starts t u.
Proof.
  intros mode env ctl c ord src n files F O D name t G.
  destruct (D name t G) as (k & v & V & ->).
  destruct (killed_grows ord O n src (started c) (good_started _ _ _ _ F) (Nat.le_0_l _)) as (P1 & P2 & W & _).
  destruct (wgrows_output _ _ P1 P2 W name v V) as (u & U). exists (v ++ u). split; [exact U|]. apply firstn_starts. now exists u.
Qed.
Print Assumptions C70_conversion.

(** Killed after its last operation: nothing is missing (but what the buffers hold). *)
Theorem C70_end : forall mode env ctl c ord src n,
  factory mode true env ctl = Ok (Some c) -> walk ord ->
  let s := fst (decode_rtcm_file ord no_faults src (started c)) in
  (length (r_trace s) <= n)%nat -> r_world (killed ord no_faults n src (started c)) = r_world s.
Proof.
  intros mode env ctl c ord src n F O s L.
  exact (proj2 (proj2 (proj2 (killed_grows ord O n src (started c) (good_started _ _ _ _ F) (Nat.le_0_l _)))) L).
Qed.
Print Assumptions C70_end.

Lemma json_row : forall ctl can st x k, jinv st ->
  forall name t, sget (jp_files (print_interrupted ctl can st x k)) name = Some t ->
  exists u, sget (jp_files (fst (json_print ctl can st x))) name = Some u /\ starts t u.
Proof.
  intros ctl can st x k I name t G. unfold json_print. unfold print_interrupted in G.
  destruct (print_ops ctl st x) as [ops|e] eqn:E; [|exists t; split; [exact G|exists []; now rewrite app_nil_r]].
  pose proof (print_ops_shape ctl st x ops E) as S. rewrite <- (firstn_skipn k ops).
  assert (J : jinv (fst (do_ops can st (firstn k ops)))).
  { apply jinv_ops; [exact I|]. intros a op b Q. apply (S a op (b ++ skipn k ops)). rewrite <- (firstn_skipn k ops) at 1. rewrite Q, <- app_assoc. reflexivity. }
  assert (A : forall ops1 ops2 st, do_ops can st (ops1 ++ ops2) = match do_ops can st ops1 with (st, Ok _) => do_ops can st ops2 | r => r end).
  { clear. induction ops1 as [|o r IH]; intros ops2 st; cbn [app do_ops]; [reflexivity|]. destruct (do_op can st o) as [st1 [[]|e]]; [apply IH|reflexivity]. }
  rewrite A. destruct (do_ops can st (firstn k ops)) as [st1 [[]|e]] eqn:D; cbn [fst] in *;
    [|exists t; split; [exact G|exists []; now rewrite app_nil_r]].
  destruct k as [|k].
  { cbn [firstn do_ops] in D. assert (st1 = st) as -> by congruence. cbn [skipn].
    destruct (jinv_ops can ops st I S) as (_ & GR). destruct (GR name t G) as (u & U). exists (t ++ u). split; [exact U|now exists u]. }
  destruct (jinv_ops can (skipn (Datatypes.S k) ops) st1 J) as (_ & GR).
  { intros a op b Q. specialize (S (firstn (Datatypes.S k) ops ++ a) op b). rewrite <- app_assoc, <- Q, firstn_skipn in S. specialize (S eq_refl).
    destruct op; [|exact Logic.I]. destruct S as (X & _). destruct ops; [cbn [skipn] in Q; now destruct a|discriminate]. }
  destruct (GR name t G) as (u & U). exists (t ++ u). split; [exact U|now exists u].
Qed.
Lemma obs_row : forall ctl can st rows k, minv st ->
  forall name t, sget (mg_files (fst (append_rows ctl can st (firstn k rows)))) name = Some t ->
  exists u, sget (mg_files (fst (append_rows ctl can st rows))) name = Some u /\ starts t u.
Proof.
  intros ctl can st rows k I name t G. rewrite <- (firstn_skipn k rows).
  assert (A : forall a b st, append_rows ctl can st (a ++ b) = match append_rows ctl can st a with (st, Ok _) => append_rows ctl can st b | r => r end).
  { clear. induction a as [|[f row] a IH]; intros b st; cbn [app append_rows]; [reflexivity|]. destruct (FORMAT (substring 1 1 f)) as [[w fr]|e]; [|reflexivity].
    destruct (append ctl can st f (format_obs_string row w fr)) as [st1 [x|e]]; [apply IH|reflexivity]. }
  rewrite A. pose proof (proj1 (minv_rows ctl can (firstn k rows) st I)) as J.
  destruct (append_rows ctl can st (firstn k rows)) as [st1 [[]|e]]; cbn [fst] in *; [|exists t; split; [exact G|exists []; now rewrite app_nil_r]].
  destruct (proj2 (minv_rows ctl can (skipn k rows) st1 J) name t G) as (u & U). exists (t ++ u). split; [exact U|now exists u].
Qed.

(** In the middle of an operation: what a printer has written when it is killed is also an
    initial part of what it writes when it is left alone, so that the moments between operations
    stand for all moments.  [k]: the file operations, or rows, that are done; [before]: what has
    been printed, and which files could be created. *)
Theorem C70_json_row : forall ctl before can x k,
  let st := fold_left (fun st e => fst (json_print ctl (snd e) st (fst e))) before json_init in
  forall name t, sget (jp_files (print_interrupted ctl can st x k)) name = Some t ->
  exists u, sget (jp_files (fst (json_print ctl can st x))) name = Some u /\ starts t u.
Proof.
  intros ctl before can x k st. apply json_row. unfold st.
  assert (J : jinv json_init) by exact (proj2 winv_init). revert J. generalize json_init. clear. induction before as [|e before IH]; intros st J; cbn [fold_left]; [exact J|].
  apply IH. now apply jinv_print.
Qed.
Print Assumptions C70_json_row.
Theorem C70_obs_row : forall ctl before can o rows k,
  let st := fold_left (fun st e => fst (margo_print ctl (snd e) st (fst e))) before margo_init in
  to_print_buffer ctl o = Ok rows ->
  forall name t, sget (mg_files (fst (append_rows ctl can st (firstn k rows)))) name = Some t ->
  exists u, sget (mg_files (fst (margo_print ctl can st (OMsm (MsmScaled o))))) name = Some u /\ starts t u.
Proof.
  intros ctl before can o rows k st B. cbn [margo_print]. unfold print_observables. rewrite B. apply obs_row. unfold st.
  assert (J : minv margo_init) by exact (proj1 winv_init). revert J. generalize margo_init. clear. induction before as [|e before IH]; intros st J; cbn [fold_left]; [exact J|].
  apply IH. now apply minv_print.
Qed.
Print Assumptions C70_obs_row.

(** ** The whole program *)
Lemma in_two mode all a b p : independent mode all -> In a all -> In b all ->
  inside (work_folder a mode) p = true -> inside (work_folder b mode) p = true -> a = b.
Proof.
  intros I A B HA HB. destruct (I a b A B) as ([E|(N & X & Y)] & _); [exact E|].
  destruct (inside_two _ _ _ HA HB) as [E|[E|E]]; congruence.
Qed.

Lemma one_begun mode box lk f src f1 : lucky lk -> create_work_folder mode lk f src = (f1, true) ->
  f1 = rmtree (work_folder src mode) f /\ f (work_folder src mode) = None /\
  forall f' l' o, convert_one mode (Some box) lk f logger_init src = (f', l', Ok o) ->
  let f2 := begun lk (log_path mode src) f1 in let l1 := chosen lk (log_path mode src) in
  exists c s m, factory mode true (lk_os lk) box = Ok (Some c) /\
    s = fst (decode_rtcm_file (lk_ord lk) no_faults (match f2 src with Some content => regular_file content | None => None end) (started c)) /\
    f' = log l1 m (log_all l1 (lk_messages lk) (put (work_folder src mode) (output_files (r_world s)) f2)) \/
  factory mode true (lk_os lk) box = Ok None.
Proof.
  intros (L1 & L2 & L3 & L4 & L5 & L6) C. unfold create_work_folder in C. destruct (f (work_folder src mode)) eqn:FF; [congruence|].
  rewrite L1, L2 in C. assert (f1 = rmtree (work_folder src mode) f) as -> by congruence. split; [reflexivity|]. split; [reflexivity|].
  intros f' l' o H. pose proof H as H0. apply one_cases in H. destruct H as [(E & _ & _)|[(E & _)|(_ & _ & _ & _ & H)]]; [|discriminate|].
  { exfalso. unfold convert_one, create_work_folder in H0. rewrite FF, L1, L2, (init_idle lk) in H0 by exact L3.
    destruct (factory mode true (lk_os lk) box) as [[c|]|e]; try congruence. destruct (decode_rtcm_file _ _ _ _) as [s [b|e]]; congruence. }
  cbv zeta in H |- *. destruct (factory mode true (lk_os lk) box) as [[c|]|e]; [| |destruct H; discriminate].
  - destruct H as (s & [b|e] & D & H); [|destruct H; discriminate]. cbv zeta in H. destruct H as (_ & _ & ->). rewrite L5 in D.
    exists c, s. eexists. left. split; [reflexivity|]. rewrite D. split; reflexivity.
  - exists (Build_converter framer_init decoder_init printer_init), (started (Build_converter framer_init decoder_init printer_init)), no_controls_message. right. reflexivity.
Qed.

(** What is found in the work folder of the source whose turn it was: what was there before,
    perhaps with files missing; or initial parts of files of its products and of its log. *)
Definition old_products (mode : string) (f g : fs) (src : path) : Prop :=
  forall p, inside (work_folder src mode) p = true -> g p = f p \/ g p = None.
Definition new_products (mode : string) (g whole : fs) (src : path) : Prop :=
  forall p t, inside (work_folder src mode) p = true -> g p = Some t -> exists u, whole p = Some u /\ starts t u.

Lemma starts_refl t : starts t t. Proof. exists []. now rewrite app_nil_r. Qed.
Lemma starts_trans a b c : starts a b -> starts b c -> starts a c.
Proof. intros (r & ->) (r' & ->). exists (r ++ r'). now rewrite app_assoc. Qed.
Lemma lines_firstn m ms : starts (lines (firstn m ms)) (lines ms).
Proof. exists (lines (skipn m ms)). now rewrite <- lines_app, firstn_skipn. Qed.

Lemma crash_shape mode box : In mode modes -> forall f l jobs g, crash mode (Some box) f l jobs g -> l = logger_init ->
  NoDup (map fst jobs) -> independent mode (map fst jobs) -> (forall src lk, In (src, lk) jobs -> lucky lk) ->
  forall f' l' outs, convert_loop mode (Some box) f logger_init jobs = (f', l', (outs, None)) ->
  exists before after, jobs = before ++ after /\
    (forall src lk p, In (src, lk) before -> inside (work_folder src mode) p = true -> g p = f' p) /\
    match after with
    | [] => True
    | (src, _) :: later => (old_products mode f g src \/ new_products mode g f' src) /\
        forall src' lk' p, In (src', lk') later -> inside (work_folder src' mode) p = true -> g p = f p
    end /\
    (forall p, (forall src lk, In (src, lk) jobs -> inside (work_folder src mode) p = false) -> g p = f p).
Proof.
  intros MO f l jobs g C. induction C as [f l jobs|f l src lk jobs keep FF|f l src lk jobs f1 k CW LG|f l src lk jobs f1 f2 l2 box' c n files m k CW IL BX FA OD|f l src lk jobs f1 l1 o g CO CR IH];
    intros L ND IND LK f' l' outs H; subst l.
  - exists [], jobs. split; [reflexivity|]. split; [intros ? ? ? []|]. split; [|reflexivity]. destruct jobs as [|[src lk] jobs]; [exact Logic.I|].
    split; [left; intros p _; now left|reflexivity].
  - exists [], ((src, lk) :: jobs). split; [reflexivity|]. split; [intros ? ? ? []|]. split; [split|].
    + left. intros p I. rewrite I. destruct (keep p); cbn [negb andb]; auto.
    + intros src' lk' p I' HI. destruct (inside (work_folder src mode) p) eqn:X; [|reflexivity]. exfalso.
      assert (E : src = src') by (apply (in_two mode (map fst ((src, lk) :: jobs)) src src' p IND); auto; [now left|right; now apply (in_map fst) in I']).
      inversion ND as [|? ? NI _]; subst. apply NI. now apply (in_map fst) in I'.
    + intros p N. rewrite (N src lk (or_introl eq_refl)). reflexivity.
  - pose proof (LK src lk (or_introl eq_refl)) as LU. destruct (one_begun mode box lk f src f1 LU CW) as (-> & FF & OB).
    cbn [convert_loop] in H. destruct (convert_one mode (Some box) lk f logger_init src) as [[fa la] [o|e]] eqn:O; [|congruence].
    rewrite (one_idle _ _ _ _ _ _ _ _ O) in *. destruct (convert_loop mode (Some box) fa logger_init jobs) as [[fb lb] [ob xb]] eqn:R.
    assert (f' = fb /\ xb = None) as (-> & ->) by (split; congruence).
    assert (LATER : forall p, inside (work_folder src mode) p = true -> fb p = fa p).
    { intros p X. apply (loop_outside _ _ _ _ _ _ _ p R). intros y ky Iy. destruct (inside (work_folder y mode) p) eqn:Y; [|reflexivity]. exfalso.
      assert (E : src = y) by (apply (in_two mode (map fst ((src, lk) :: jobs)) src y p IND); auto; [now left|right; now apply (in_map fst) in Iy]).
      inversion ND as [|? ? NI _]; subst. apply NI. now apply (in_map fst) in Iy. }
    assert (LT : lk_log lk = Some true) by (destruct LU as (_ & _ & L3 & _); destruct (lk_log lk) as [[]|]; congruence).
    exists [], ((src, lk) :: jobs). split; [reflexivity|]. split; [intros ? ? ? []|]. split; [split|].
    + right. intros p t X G. rewrite (LATER p X). unfold fs_set in G. destruct (path_eqb p (log_path mode src)) eqn:E.
      2:{ unfold rmtree in G. rewrite X in G. discriminate. }
      apply path_eqb_spec in E. subst p. assert (t = firstn k welcome) as -> by congruence.
      destruct (OB _ _ _ eq_refl) as (c & s & m & [(F & _ & ->)|F]).
      2:{ destruct (factory_exists mode (lk_os lk) box MO) as (c' & F'). congruence. }
      unfold chosen. rewrite LT, log_here, log_all_here, put_log. unfold begun. rewrite LT. unfold fs_set. rewrite path_eqb_refl. cbn [option_map].
      eexists. split; [reflexivity|]. apply firstn_starts. eexists. rewrite <- app_assoc. reflexivity.
    + intros src' lk' p I' HI. assert (X : inside (work_folder src mode) p = false).
      { destruct (inside (work_folder src mode) p) eqn:X; [|reflexivity]. exfalso.
        assert (E : src = src') by (apply (in_two mode (map fst ((src, lk) :: jobs)) src src' p IND); auto; [now left|right; now apply (in_map fst) in I']).
        inversion ND as [|? ? NI _]; subst. apply NI. now apply (in_map fst) in I'. }
      unfold fs_set. rewrite (path_eqb_neq _ _ (not_log _ _ _ X)). unfold rmtree. now rewrite X.
    + intros p N. pose proof (N src lk (or_introl eq_refl)) as X. unfold fs_set. rewrite (path_eqb_neq _ _ (not_log _ _ _ X)). unfold rmtree. now rewrite X.
  - assert (box' = box) as -> by congruence. pose proof (LK src lk (or_introl eq_refl)) as LU. destruct (one_begun mode box lk f src f1 LU CW) as (-> & FF & OB).
    cbn [convert_loop] in H. destruct (convert_one mode (Some box) lk f logger_init src) as [[fa la] [o|e]] eqn:O; [|congruence].
    rewrite (one_idle _ _ _ _ _ _ _ _ O) in *. destruct (convert_loop mode (Some box) fa logger_init jobs) as [[fb lb] [ob xb]] eqn:R.
    assert (f' = fb /\ xb = None) as (-> & ->) by (split; congruence).
    assert (LATER : forall p, inside (work_folder src mode) p = true -> fb p = fa p).
    { intros p X. apply (loop_outside _ _ _ _ _ _ _ p R). intros y ky Iy. destruct (inside (work_folder y mode) p) eqn:Y; [|reflexivity]. exfalso.
      assert (E : src = y) by (apply (in_two mode (map fst ((src, lk) :: jobs)) src y p IND); auto; [now left|right; now apply (in_map fst) in Iy]).
      inversion ND as [|? ? NI _]; subst. apply NI. now apply (in_map fst) in Iy. }
    destruct LU as (_ & _ & L3 & _ & L5 & L6). rewrite (init_idle lk _ _ L3) in IL.
    assert (f2 = begun lk (log_path mode src) (rmtree (work_folder src mode) f)) as E2 by congruence.
    assert (l2 = chosen lk (log_path mode src)) as E3 by congruence. clear IL.
    destruct (OB _ _ _ eq_refl) as (c' & s & msg & [(F & SS & ->)|F]); [|congruence]. assert (c' = c) as -> by congruence. rewrite <- E2, <- E3 in *. clear OB.
    exists [], ((src, lk) :: jobs). split; [reflexivity|]. split; [intros ? ? ? []|]. split; [split|].
    + right. intros p t X G. rewrite (LATER p X). destruct (path_eqb p (log_path mode src)) eqn:E.
      * apply path_eqb_spec in E. subst p. rewrite E3 in G |- *. unfold chosen in *. destruct (lk_log lk) as [[]|] eqn:LT.
        -- rewrite log_all_here in G. rewrite log_here, log_all_here, put_log. destruct (f2 (log_path mode src)) as [w|]; [|discriminate]. cbn [option_map] in *.
           assert (t = firstn k (w ++ lines (firstn m (lk_messages lk)))) as -> by congruence. eexists. split; [reflexivity|]. apply firstn_starts.
           destruct (lines_firstn m (lk_messages lk)) as (r & RR). rewrite RR. exists (r ++ lines [msg]). now rewrite !app_assoc.
        -- rewrite log_all_idle in G. rewrite log_idle, log_all_idle, put_log. destruct (f2 (log_path mode src)) as [w|]; [|discriminate]. cbn [option_map] in *.
           assert (t = firstn k w) as -> by congruence. eexists. split; [reflexivity|]. apply firstn_starts, starts_refl.
        -- congruence.
      * assert (NL : p <> log_path mode src) by (intros ->; rewrite path_eqb_refl in E; discriminate).
        rewrite E3, (chosen_other _ _ _ _ _ NL), (chosen_all_other _ _ _ _ _ NL). unfold put in *. rewrite X in *.
        assert (Z : f2 p = None) by (rewrite E2, (begun_other _ _ _ _ NL); unfold rmtree; now rewrite X). rewrite Z in *.
        destruct (skipn (length (work_folder src mode)) p) as [|a [|b [|? ?]]]; try discriminate.
        destruct (sget files (a ++ "/" ++ b)%string) as [v|] eqn:V; [|discriminate]. assert (v = t) as -> by congruence.
        rewrite L5 in OD. destruct (C70_conversion _ _ _ _ _ _ _ _ FA L6 OD _ _ V) as (u & U & ST). rewrite SS, U. now exists u.
    + intros src' lk' p I' HI. assert (X : inside (work_folder src mode) p = false).
      { destruct (inside (work_folder src mode) p) eqn:X; [|reflexivity]. exfalso.
        assert (E : src = src') by (apply (in_two mode (map fst ((src, lk) :: jobs)) src src' p IND); auto; [now left|right; now apply (in_map fst) in I']).
        inversion ND as [|? ? NI _]; subst. apply NI. now apply (in_map fst) in I'. }
      rewrite (path_eqb_neq _ _ (not_log _ _ _ X)). unfold put. rewrite X, E2, (begun_other _ _ _ _ (not_log _ _ _ X)). unfold rmtree. now rewrite X.
    + intros p N. pose proof (N src lk (or_introl eq_refl)) as X. rewrite (path_eqb_neq _ _ (not_log _ _ _ X)). unfold put.
      rewrite X, E2, (begun_other _ _ _ _ (not_log _ _ _ X)). unfold rmtree. now rewrite X.
  - cbn [convert_loop] in H. rewrite CO in H. pose proof (one_idle _ _ _ _ _ _ _ _ CO) as ->.
    destruct (convert_loop mode (Some box) f1 logger_init jobs) as [[fb lb] [ob xb]] eqn:R. assert (f' = fb /\ xb = None) as (-> & ->) by (split; congruence).
    inversion ND as [|? ? NI ND']; subst.
    destruct (IH eq_refl ND' (fun x y X Y => IND x y (or_intror X) (or_intror Y)) (fun y k I => LK y k (or_intror I)) _ _ _ eq_refl) as (before & after & -> & A & B & D).
    assert (APART : forall y ky p, In (y, ky) (before ++ after) -> inside (work_folder src mode) p = true -> inside (work_folder y mode) p = false).
    { intros y ky p Iy X. destruct (inside (work_folder y mode) p) eqn:Y; [|reflexivity]. exfalso.
      assert (E : src = y) by (apply (in_two mode (map fst ((src, lk) :: before ++ after)) src y p IND); auto; [now left|right; now apply (in_map fst) in Iy]).
      subst. apply NI. now apply (in_map fst) in Iy. }
    assert (OUT : forall y ky p, In (y, ky) (before ++ after) -> inside (work_folder y mode) p = true -> f1 p = f p).
    { intros y ky p Iy Y. apply (one_outside _ _ _ _ _ _ _ _ _ CO). destruct (inside (work_folder src mode) p) eqn:X; [|reflexivity]. rewrite (APART y ky p Iy X) in Y. discriminate. }
    exists ((src, lk) :: before), after. split; [reflexivity|]. split; [|split].
    + intros y ky p [E|Iy] Y; [|exact (A y ky p Iy Y)]. assert (y = src) as -> by congruence.
      rewrite (D p) by (intros z kz Iz; exact (APART z kz p Iz Y)). symmetry. apply (loop_outside _ _ _ _ _ _ _ p R). intros z kz Iz. exact (APART z kz p Iz Y).
    + destruct after as [|[y ky] later]; [exact Logic.I|]. destruct B as (B1 & B2). split.
      * destruct B1 as [B1|B1]; [left|right; exact B1]. intros p Y. rewrite <- (OUT y ky p); [now apply B1|apply in_or_app; right; now left|exact Y].
      * intros z kz p Iz Z. rewrite (B2 z kz p Iz Z). apply (OUT z kz p); [|exact Z]. apply in_or_app. right. now right.
    + intros p N. rewrite (D p) by (intros z kz Iz; apply (N z kz); now right). apply (one_outside _ _ _ _ _ _ _ _ _ CO). exact (N src lk (or_introl eq_refl)).
Qed.

(** A run over sources with separate work folders, killed at any moment: the sources before
    some point have all their products, complete; the sources after it are as they were before
    the run; in the work folder of the one between them are either products of earlier runs,
    perhaps not all of them any more, or initial parts of the new products and the new log, and
    never both; everything outside the work folders, the sources among it, is as it was. *)
Theorem C70_run : forall kord defaults user ctl mode f jobs f' l' outs x g,
  main_controls kord defaults user = Ok (Some ctl) -> controls_ok (box_margo ctl) -> In mode modes ->
  (forall src lk, In (src, lk) jobs -> lucky lk) -> independent mode (map fst jobs) -> NoDup (map fst jobs) ->
  (forall src, In src (map fst jobs) -> f (work_folder src mode) = None /\ exists content, f src = Some content /\ bytes_ok content) ->
  main kord defaults user mode f jobs = (f', l', (outs, x)) ->
  crashed_main kord defaults user mode f jobs g ->
  exists before after, jobs = before ++ after /\
    (forall src lk p, In (src, lk) before -> inside (work_folder src mode) p = true -> g p = f' p) /\
    match after with
    | [] => True
    | (src, _) :: later => (old_products mode f g src \/ new_products mode g f' src) /\
        forall src' lk' p, In (src', lk') later -> inside (work_folder src' mode) p = true -> g p = f p
    end /\
    (forall p, (forall src lk, In (src, lk) jobs -> inside (work_folder src mode) p = false) -> g p = f p).
Proof.
  intros kord defaults user ctl mode f jobs f' l' outs x g CT C M LK IND ND H0 H G.
  unfold crashed_main in G. unfold main in H. rewrite CT in H, G.
  assert (X : x = None).
  { refine (loop_lucky mode ctl (map fst jobs) f M C IND H0 jobs f f' l' outs x (fun y I => I) LK _ H). auto. }
  subst x. exact (crash_shape mode ctl M f logger_init jobs g G eq_refl ND IND LK f' l' outs H).
Qed.
Print Assumptions C70_run.

(** A killed conversion can leave JSON files that are not JSON: the end of the array is written
    on the way out.  (They are initial parts of JSON files, C70_conversion.) *)
Definition sample_source : source := regular_file (sample_1005 ++ sample_1005).
Definition sample_file (w : world) : list Z :=
  match sget (output_files w) "BASE/RefPoint-1005.json" with Some c => c | None => [] end.
Definition sample_state (n : nat) : world :=
  match factory "JSON" true sample_os sample_box with
  | Ok (Some c) => r_world (killed (fun l => l) no_faults n sample_source (started c))
  | _ => world_init
  end.
Theorem C70_json_refuted : exists mode env ctl c ord src n files name t,
  factory mode true env ctl = Ok (Some c) /\ walk ord /\
  on_disk files (output_files (r_world (killed ord no_faults n src (started c)))) /\
  sget files name = Some t /\ JsonSpec.read_json t = None.
Proof.
  destruct (factory_exists "JSON" sample_os sample_box) as (c & F); [right; left; reflexivity|].
  exists "JSON", sample_os, sample_box, c, (fun l => l), sample_source, 8%nat,
    (output_files (r_world (killed (fun l => l) no_faults 8 sample_source (started c)))), "BASE/RefPoint-1005.json", (sample_file (sample_state 8)).
  split; [exact F|]. split; [intros l; apply Permutation_refl|].
  split; [intros name t H; exists (length t), t; split; [exact H|now rewrite firstn_all]|].
  assert (E : sample_state 8 = r_world (killed (fun l => l) no_faults 8 sample_source (started c))) by (unfold sample_state; now rewrite F).
  rewrite <- E. split; [|vm_compute; reflexivity].
  assert (X : match sget (output_files (sample_state 8)) "BASE/RefPoint-1005.json" with Some _ => true | None => false end = true) by (vm_compute; reflexivity).
  unfold sample_file. destruct (sget (output_files (sample_state 8)) "BASE/RefPoint-1005.json"); [reflexivity|discriminate].
Qed.
Print Assumptions C70_json_refuted.

(** The file of two messages at four moments: nothing, one message, both, complete. *)
Example C70_nonvacuous :
  let sizes := map (fun n => length (sample_file (sample_state n))) [6; 7; 9; 20]%nat in
  (exists a b d, sizes = [O; a; b; d] /\ Nat.ltb O a && Nat.ltb a b && Nat.ltb b d = true) /\
  crashed_main ident (Parsed default_ini) None "JSON" sample_fs [(["d"; "a.rtcm3"], sample_luck [])]
    (fs_set (rmtree ["d"; "a-JSON"] sample_fs) ["d"; "a-JSON"; "a-log.txt"] (firstn 9 welcome)).
Proof.
  split; [vm_compute; repeat eexists|]. unfold crashed_main.
  destruct (main_controls ident (Parsed default_ini) None) as [ctl|] eqn:E; [|vm_compute in E; discriminate].
  apply (crash_logging "JSON" ctl sample_fs logger_init ["d"; "a.rtcm3"] (sample_luck []) [] (rmtree ["d"; "a-JSON"] sample_fs) 9); [reflexivity|discriminate].
Qed.
