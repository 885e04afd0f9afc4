(** * CrashProofs: the files of a conversion only grow. *)
From Coq Require Import Permutation Lia.
From Verif Require Import PyBase PyDict PyFloat PyVal BitsModel FramerModel MsmModel DecoderModel JsonModel JsonFileSpec JsonFiles MargoModel
  PrinterModel PrinterSpec PrinterProofs MainModel PropertiesMain CrashModel.
Local Open Scope string_scope.
Local Open Scope list_scope.
Local Open Scope Z_scope.

(** ** Growing sets of files *)
Definition grows (a b : list (string * list Z)) : Prop :=
  forall p t, sget a p = Some t -> exists u, sget b p = Some (t ++ u).
Lemma grows_refl a : grows a a.
Proof. intros p t H. exists []. now rewrite app_nil_r. Qed.
Lemma grows_trans a b c : grows a b -> grows b c -> grows a c.
Proof. intros AB BC p t H. destruct (AB p t H) as (u & H'). destruct (BC p _ H') as (v & H''). exists (u ++ v). now rewrite app_assoc. Qed.
Lemma grows_append a p t : grows a (sset a p (match sget a p with Some c => c | None => [] end ++ t)).
Proof.
  intros q v H. destruct (string_dec p q) as [<-|N]; [|exists []; rewrite (sget_other _ _ _ _ N), app_nil_r; exact H].
  rewrite sget_same, H. now exists t.
Qed.
Lemma grows_create a p : sget a p = None -> grows a (sset a p []).
Proof. intros G q v H. destruct (string_dec p q) as [<-|N]; [congruence|]. exists []. rewrite (sget_other _ _ _ _ N), app_nil_r. exact H. Qed.

(** ** The observation files *)
Definition margo_place (o p : string) : Prop := margo_path o = Ok p /\ exists wf, FORMAT (substring 1 1 o) = Ok wf.
Definition minv (st : margo) : Prop :=
  forall p, sget (mg_files st) p <> None -> exists o, margo_place o p /\ is_open st o = true.

Fixpoint has_slash (s : string) : bool :=
  match s with EmptyString => false | String c r => Ascii.eqb c (Ascii.ascii_of_nat 47) || has_slash r end.
Lemma slash_split : forall a b x y, has_slash a = false -> has_slash b = false ->
  (a ++ "/" ++ x = b ++ "/" ++ y)%string -> a = b /\ x = y.
Proof.
  induction a as [|c a IH]; intros [|d b] x y A B E; cbn [String.append has_slash] in *.
  - injection E as ->. auto.
  - injection E as <- _. discriminate.
  - injection E as -> _. discriminate.
  - injection E as -> E. apply Bool.orb_false_iff in A, B. destruct (IH b x y (proj2 A) (proj2 B) E) as (-> & ->). auto.
Qed.
Lemma dirname_plain g d : DIRNAME g = Ok d -> has_slash d = false.
Proof.
  unfold DIRNAME, get_or_assert. destruct (sget OFILE_LT1 g) as [v|] eqn:E; [|discriminate]. intros H. injection H as <-.
  unfold sget in E. apply (dget_In String.eqb String.eqb_eq) in E.
  assert (X : forallb (fun e => negb (has_slash (snd e))) OFILE_LT1 = true) by (vm_compute; reflexivity).
  rewrite forallb_forall in X. specialize (X _ E). cbn [snd] in X. now destruct (has_slash v).
Qed.
Lemma margo_path_inj a b p : margo_path a = Ok p -> margo_path b = Ok p -> a = b.
Proof.
  unfold margo_path. intros A B. destruct (DIRNAME (substring 0 1 a)) as [da|] eqn:DA; [|discriminate].
  destruct (DIRNAME (substring 0 1 b)) as [db|] eqn:DB; [|discriminate]. cbn [bind] in A, B.
  injection A as <-. injection B as B. symmetry in B. exact (proj2 (slash_split _ _ _ _ (dirname_plain _ _ DA) (dirname_plain _ _ DB) B)).
Qed.

Lemma minv_write st o p t : minv st -> margo_place o p -> is_open st o = true ->
  minv (margo_write st p t) /\ grows (mg_files st) (mg_files (margo_write st p t)).
Proof.
  intros I M O. split; [|cbn [margo_write mg_files]; apply grows_append].
  intros q H. destruct (string_dec p q) as [<-|N]; [exists o; auto|]. cbn [margo_write mg_files] in H. rewrite (sget_other _ _ _ _ N) in H. exact (I q H).
Qed.
Lemma is_open_cons o st files n : is_open {| mg_open := o :: mg_open st; mg_files := files |} n = (String.eqb n o || is_open st n)%bool.
Proof. reflexivity. Qed.
Lemma minv_append ctl can st o line wf : FORMAT (substring 1 1 o) = Ok wf -> minv st ->
  minv (fst (append ctl can st o line)) /\ grows (mg_files st) (mg_files (fst (append ctl can st o line))).
Proof.
  intros W I. unfold append. destruct (margo_path o) as [p|e] eqn:P.
  2:{ destruct (is_open st o) eqn:O; cbn [negb]; [|unfold create_ofile; rewrite P]; cbn [fst]; split; auto using grows_refl. }
  assert (M : margo_place o p) by (split; [exact P|eauto]).
  destruct (is_open st o) eqn:O; cbn [negb].
  - cbn [fst]. now apply (minv_write st o).
  - unfold create_ofile. rewrite P. destruct (can o); [|cbn [fst]; split; auto using grows_refl].
    set (st1 := {| mg_open := o :: mg_open st; mg_files := sset (mg_files st) p [] |}).
    assert (O1 : is_open st1 o = true) by (unfold st1; rewrite is_open_cons, String.eqb_refl; reflexivity).
    assert (G1 : grows (mg_files st) (mg_files st1)).
    { apply grows_create. destruct (sget (mg_files st) p) eqn:G; [|reflexivity]. destruct (I p) as (o' & (P' & _) & O'); [congruence|].
      rewrite (margo_path_inj o o' p P P') in O. congruence. }
    assert (I1 : minv st1).
    { intros q H. destruct (string_dec p q) as [<-|N]; [exists o; auto|]. unfold st1 in H. cbn [mg_files] in H. rewrite (sget_other _ _ _ _ N) in H.
      destruct (I q H) as (o' & M' & O'). exists o'. split; [exact M'|]. unfold st1. rewrite is_open_cons, O'. apply Bool.orb_true_r. }
    destruct (make_header ctl o) as [[h1 h2]|e]; cbn [fst]; [|auto].
    destruct (minv_write st1 o p h1 I1 M O1) as (I2 & G2). destruct (minv_write (margo_write st1 p h1) o p h2 I2 M O1) as (I3 & G3).
    destruct (minv_write (margo_write (margo_write st1 p h1) p h2) o p line I3 M O1) as (I4 & G4).
    split; [exact I4|]. eauto using grows_trans.
Qed.
Lemma minv_rows ctl can : forall pbuf st, minv st ->
  minv (fst (append_rows ctl can st pbuf)) /\ grows (mg_files st) (mg_files (fst (append_rows ctl can st pbuf))).
Proof.
  induction pbuf as [|[o row] pbuf IH]; intros st I; cbn [append_rows]; [cbn [fst]; auto using grows_refl|].
  destruct (FORMAT (substring 1 1 o)) as [[w fr]|e] eqn:F; [|cbn [fst]; auto using grows_refl].
  pose proof (minv_append ctl can st o (format_obs_string row w fr) _ F I) as A.
  destruct (append ctl can st o (format_obs_string row w fr)) as [st1 [b|e]]; cbn [fst] in *; [|exact A].
  destruct A as (I1 & G1). destruct (IH st1 I1) as (I2 & G2). eauto using grows_trans.
Qed.
Lemma minv_print ctl can st x : minv st ->
  minv (fst (margo_print ctl can st x)) /\ grows (mg_files st) (mg_files (fst (margo_print ctl can st x))).
Proof.
  intros I. unfold margo_print, print_observables. destruct x as [m|p]; [|cbn [fst]; auto using grows_refl].
  destruct m; try (cbn [fst]; now auto using grows_refl).
  destruct (to_print_buffer ctl _); [now apply minv_rows|cbn [fst]; auto using grows_refl].
Qed.

(** ** The JSON files *)
Definition json_place (p : string) : Prop := exists n s, zget JSON_SPEC n = Some s /\ p = json_path s.
Definition jinv (st : json_printer) : Prop :=
  open_ok st /\ forall p, sget (jp_files st) p <> None -> exists n, zget (jp_open st) n = Some p.

Lemma jinv_write can st n t : jinv st ->
  jinv (fst (do_op can st (OpWrite n t))) /\ grows (jp_files st) (jp_files (fst (do_op can st (OpWrite n t)))).
Proof.
  intros (O & I). split; [split; [now apply do_write_ok|]|]; unfold do_op; destruct (zget (jp_open st) n) as [p|] eqn:E; cbn [fst]; auto using grows_refl.
  - intros q H. cbn [jp_files] in H. cbn [jp_open]. destruct (string_dec p q) as [<-|N]; [now exists n|]. rewrite (sget_other _ _ _ _ N) in H. exact (I q H).
  - cbn [jp_files]. apply grows_append.
Qed.
Lemma jinv_open can st n s : jinv st -> zget JSON_SPEC n = Some s -> zget (jp_open st) n = None ->
  jinv (fst (do_op can st (OpOpen n (json_path s)))) /\ grows (jp_files st) (jp_files (fst (do_op can st (OpOpen n (json_path s))))).
Proof.
  intros (O & I) S Z. split; [split; [now apply do_open_ok|]|]; unfold do_op; destruct (can (json_path s)); cbn [fst]; auto using grows_refl.
  - intros q H. cbn [jp_files] in H. cbn [jp_open]. destruct (string_dec (json_path s) q) as [<-|N]; [exists n; apply zget_same|].
    rewrite (sget_other _ _ _ _ N) in H. destruct (I q H) as (m & M). exists m. rewrite zget_other; [exact M|congruence].
  - cbn [jp_files]. apply grows_create. destruct (sget (jp_files st) (json_path s)) eqn:G; [|reflexivity].
    destruct (I (json_path s)) as (m & M); [congruence|]. destruct (proj2 O m (json_path s)) as (s' & S' & E).
    { unfold zget in M. exact (dget_In Z.eqb z_eqb_spec _ _ _ M). }
    rewrite (spec_paths_distinct _ _ _ _ S S' E) in Z. congruence.
Qed.
Lemma jinv_ops can : forall ops st, jinv st ->
  (forall a op b, ops = a ++ op :: b -> match op with OpWrite _ _ => True
     | OpOpen n p => a = [] /\ (exists s, zget JSON_SPEC n = Some s /\ p = json_path s) /\ zget (jp_open st) n = None end) ->
  jinv (fst (do_ops can st ops)) /\ grows (jp_files st) (jp_files (fst (do_ops can st ops))).
Proof.
  induction ops as [|op ops IH]; intros st I H; cbn [do_ops]; [cbn [fst]; auto using grows_refl|].
  assert (A : jinv (fst (do_op can st op)) /\ grows (jp_files st) (jp_files (fst (do_op can st op)))).
  { specialize (H [] op ops eq_refl). destruct op as [n p|n t]; [|now apply jinv_write]. destruct H as (_ & (s & S & ->) & Z). now apply jinv_open. }
  destruct (do_op can st op) as [st1 [[]|e]]; cbn [fst] in *; [|exact A]. destruct A as (I1 & G1).
  destruct (IH st1 I1) as (I2 & G2); [|eauto using grows_trans].
  intros a op' b ->. specialize (H (op :: a) op' b eq_refl). destruct op'; [|exact Logic.I]. destruct H as (X & _). discriminate.
Qed.
Lemma print_ops_shape ctl st x ops : print_ops ctl st x = Ok ops ->
  forall a op b, ops = a ++ op :: b -> match op with OpWrite _ _ => True
     | OpOpen n p => a = [] /\ (exists s, zget JSON_SPEC n = Some s /\ p = json_path s) /\ zget (jp_open st) n = None end.
Proof.
  unfold print_ops. destruct (data_string ctl x) as [[text n]|e]; cbn [bind]; [|discriminate].
  destruct n as [| |n| | | | |]; try discriminate. destruct (zget JSON_SPEC n) as [s|] eqn:S; [|discriminate].
  intros H. injection H as <-. intros a op b E. unfold append_ops in E. destruct (zget (jp_open st) n) as [q|] eqn:Z.
  - destruct a as [|? [|? ?]]; cbn [app] in E; [|discriminate|discriminate]. injection E as <- _. exact Logic.I.
  - destruct a as [|? [|? [|? [|? ?]]]]; cbn [app] in E; try discriminate; injection E as <-; subst; try exact Logic.I. eauto.
Qed.
Lemma jinv_some ctl can st x k : jinv st ->
  jinv (print_interrupted ctl can st x k) /\ grows (jp_files st) (jp_files (print_interrupted ctl can st x k)).
Proof.
  intros I. unfold print_interrupted. destruct (print_ops ctl st x) as [ops|e] eqn:E; [|auto using grows_refl]. apply jinv_ops; [exact I|].
  intros a op b Q. apply (print_ops_shape ctl st x ops E a op (b ++ skipn k ops)).
  rewrite <- (firstn_skipn k ops) at 1. rewrite Q, <- app_assoc. reflexivity.
Qed.
Lemma jinv_print ctl can st x : jinv st ->
  jinv (fst (json_print ctl can st x)) /\ grows (jp_files st) (jp_files (fst (json_print ctl can st x))).
Proof.
  intros I. unfold json_print. destruct (print_ops ctl st x) as [ops|e] eqn:E; [|cbn [fst]; auto using grows_refl].
  apply jinv_ops; [exact I|]. exact (print_ops_shape ctl st x ops E).
Qed.
Lemma grows_close l : forall fs, grows fs (fold_left put_end l fs).
Proof.
  induction l as [|[n p] l IH]; intros fs; cbn [fold_left]; [apply grows_refl|].
  eapply grows_trans; [|apply IH]. cbn [put_end]. apply grows_append.
Qed.
Lemma close_places l : forall fs p, sget (fold_left put_end l fs) p <> None -> sget fs p <> None \/ In p (map snd l).
Proof.
  induction l as [|[n q] l IH]; intros fs p H; cbn [fold_left] in H; [now left|]. cbn [map snd In].
  destruct (IH _ _ H) as [A|A]; [|auto]. cbn [put_end] in A. destruct (string_dec q p) as [->|N]; [auto|]. rewrite (sget_other _ _ _ _ N) in A. auto.
Qed.

(** ** Both together *)
Definition placed (w : world) : Prop :=
  (forall p, sget (mg_files (w_margo w)) p <> None -> exists o, margo_place o p) /\
  (forall p, sget (jp_files (w_json w)) p <> None -> json_place p) /\
  (forall n p, In (n, p) (jp_open (w_json w)) -> json_place p).
Definition winv (w : world) : Prop := minv (w_margo w) /\ jinv (w_json w).
Lemma winv_placed w : winv w -> placed w.
Proof.
  intros (M & (O & J)). split; [|split].
  - intros p H. destruct (M p H) as (o & P & _). now exists o.
  - intros p H. destruct (J p H) as (n & Z). unfold zget in Z. apply (dget_In Z.eqb z_eqb_spec) in Z. destruct (proj2 O _ _ Z) as (s & S & E). now exists n, s.
  - intros n p I. destruct (proj2 O _ _ I) as (s & S & E). now exists n, s.
Qed.
Lemma winv_init : winv world_init.
Proof.
  split; [intros p H; now destruct H|]. split; [|intros p H; now destruct H]. split; [constructor|intros n p []].
Qed.

Lemma places_apart o p : margo_place o p -> json_place p -> False.
Proof.
  intros (P & wf & F) (n & s & S & ->).
  assert (X : forallb (fun e => match margo_path (js_file (snd e)) with
      | Ok q => negb (String.eqb q (json_path (snd e))) || match FORMAT (substring 1 1 (js_file (snd e))) with Ok _ => false | Err _ => true end
      | Err _ => true end) JSON_SPEC = true) by (vm_compute; reflexivity).
  assert (Y : forallb (fun e => negb (has_slash (js_dir (snd e)))) JSON_SPEC = true) by (vm_compute; reflexivity).
  unfold zget in S. apply (dget_In Z.eqb z_eqb_spec) in S. rewrite forallb_forall in X, Y. specialize (X _ S). specialize (Y _ S). cbn [snd] in X, Y.
  assert (E : o = js_file s).
  { unfold margo_path, json_path in P. destruct (DIRNAME (substring 0 1 o)) as [d|] eqn:D; [|discriminate]. cbn [bind] in P. injection P as P.
    refine (proj2 (slash_split _ _ _ _ (dirname_plain _ _ D) _ P)). now destruct (has_slash (js_dir s)). }
  subst o. rewrite P, F, String.eqb_refl in X. discriminate.
Qed.

Lemma sget_app {V} (a b : list (string * V)) p : sget (a ++ b) p = match sget a p with Some v => Some v | None => sget b p end.
Proof. unfold sget. induction a as [|[k v] a IH]; [reflexivity|]. cbn [app dget]. destruct (String.eqb p k); [reflexivity|exact IH]. Qed.
Definition wgrows (a b : world) : Prop :=
  grows (mg_files (w_margo a)) (mg_files (w_margo b)) /\ grows (jp_files (w_json a)) (jp_files (w_json b)).
Lemma wgrows_refl a : wgrows a a. Proof. split; apply grows_refl. Qed.
Lemma wgrows_trans a b c : wgrows a b -> wgrows b c -> wgrows a c.
Proof. intros (A & B) (C & D). split; eauto using grows_trans. Qed.
Lemma wgrows_output a b : placed a -> placed b -> wgrows a b -> grows (output_files a) (output_files b).
Proof.
  intros (PA & QA & _) (PB & QB & _) (G & H) p t S. unfold output_files in *. rewrite sget_app in *.
  destruct (sget (mg_files (w_margo a)) p) as [v|] eqn:E.
  - injection S as <-. destruct (G p v E) as (u & U). exists u. now rewrite U.
  - destruct (H p t S) as (u & U). exists u. destruct (sget (mg_files (w_margo b)) p) as [v|] eqn:E'; [|exact U].
    exfalso. destruct (PB p) as (o & O); [congruence|]. apply (places_apart o p O). apply QB. congruence.
Qed.

(** ** Printers and converters *)
Definition tame (p : subprinter world) : Prop :=
  match sp_print p with Some f => forall w x, winv w -> winv (fst (f w x)) /\ wgrows w (fst (f w x)) | None => True end /\
  match sp_close p with Some f => forall w, placed w -> placed (fst (f w)) /\ wgrows w (fst (f w)) | None => True end.
Lemma tame_margo isdir env id ctl mode p : margo_printer isdir env id ctl mode = Ok p -> tame p.
Proof.
  unfold margo_printer. destruct (negb isdir); [discriminate|]. destruct (make_specs mode) as [s|]; [|discriminate]. cbn [bind]. intros H. injection H as <-.
  split; cbn [sp_print sp_close].
  - intros w x (M & J). pose proof (minv_print ctl (env (w_calls w)) (w_margo w) x M) as (I & G).
    destruct (margo_print ctl (env (w_calls w)) (w_margo w) x) as [m r]. cbn [fst] in *. split; [split; [exact I|exact J]|split; [exact G|apply grows_refl]].
  - intros w P. cbn [fst]. split; [exact P|]. split; apply grows_refl.
Qed.
Lemma tame_json isdir env id ctl mode p : json_subprinter isdir env id ctl mode = Ok p -> tame p.
Proof.
  unfold json_subprinter. destruct (negb isdir); [discriminate|]. destruct (make_specs mode) as [s|]; [|discriminate]. cbn [bind]. intros H. injection H as <-.
  split; cbn [sp_print sp_close].
  - intros w x (M & J). pose proof (jinv_print ctl (env (w_calls w)) (w_json w) x J) as (I & G).
    destruct (json_print ctl (env (w_calls w)) (w_json w) x) as [m r]. cbn [fst] in *. split; [split; [exact M|exact I]|split; [apply grows_refl|exact G]].
  - intros w (P & Q & R). cbn [fst]. split; [|split; [apply grows_refl|apply grows_close]].
    split; [exact P|]. split; [|intros n p []]. cbn [w_json]. intros p H. apply close_places in H. destruct H as [H|H]; [now apply Q|].
    apply in_map_iff in H. destruct H as ((n & q) & E & I). cbn [snd] in E. subst q. exact (R n p I).
Qed.
Lemma tame_factory mode env ctl c : factory mode true env ctl = Ok (Some c) -> Forall tame (pt_printers (cv_printer c)).
Proof.
  intros F. destruct (factory_inv _ _ _ _ _ F) as (_ & _ & _ & _ & PR & _). apply Forall_forall. intros p I.
  assert (I' : In (Ok p) (printers_of mode env ctl)) by (rewrite <- PR; now apply in_map). clear - I'.
  unfold printers_of in I'.
  repeat match goal with H : In _ (if ?b then _ else _) |- _ => destruct b | H : In _ (_ :: _) |- _ => destruct H as [H|H] | H : In _ [] |- _ => destruct H end;
    eauto using tame_margo, tame_json.
Qed.
