(** * PropertiesControls: C41, C48, C49 (controls from INI files). *)
From Coq Require Import Permutation Lia.
From Verif Require Import PyBase PyDict PyVal MargoModel MargoSpec JsonModel ControlsModel ControlsSpec ControlsProofs
  TestData DecoderModel PrinterModel MainModel MainSpec PropertiesPrinter PropertiesMain.
Local Open Scope string_scope.
Local Open Scope list_scope.
Local Open Scope Z_scope.

Lemma merge_empty c : merge c ini_empty = c.
Proof. now destruct c. Qed.
Lemma merge_nonempty a b : i_sections a <> [] \/ i_sections b <> [] -> i_sections (merge a b) <> [].
Proof.
  unfold merge. cbn [i_sections]. generalize (i_sections a) as d. induction (i_sections b) as [|s r IH]; cbn [fold_left]; intros d H.
  - destruct H as [H|H]; congruence.
  - apply IH. left. destruct d as [|[k v] d']; cbn [dset]; [discriminate|]. destruct (text_eqb (fst s) k); discriminate.
Qed.
Lemma nonempty_len {A} (l : list A) : l <> [] -> negb (zlen l =? 0) = true.
Proof. destruct l; [congruence|]. intros _. unfold zlen. cbn [length]. rewrite (proj2 (Z.eqb_neq _ _)); [reflexivity|lia]. Qed.

(** ** Steps *)
Definition covers (m : margo_controls) : Prop := forall sat, zget (glo_lit_tab m) sat <> None <-> 1 <= sat <= 24.
Lemma from_covers i m : margo_from i m -> covers m.
Proof.
  intros (A & B & _) sat. split; [apply B|]. intros S. destruct (A sat S) as (key & v & k & _ & _ & _ & E). congruence.
Qed.

Definition cstep (ord : list text -> list text) (st : controls) (e : cevent) : controls * res unit :=
  match e with Init f => init_from_file ord st f | Update f => update_from_file ord st f end.
Lemma cafter_snoc ord h e : cafter ord (h ++ [e]) = fst (cstep ord (cafter ord h) e).
Proof. unfold cafter. rewrite fold_left_app. cbn [fold_left]. now destruct e. Qed.
Lemma configuration_snoc h e : configuration (h ++ [e]) = merge (configuration h) (content (file_of_event e)).
Proof. unfold configuration. now rewrite fold_left_app. Qed.

Section Ord.
Variable ord : list text -> list text.
Hypothesis walk : walk_keys ord.

Ltac crush := cbn [ct_margo ct_json ct_ini ct_ini_ok ct_margo_ok ct_json_ok flags set_margo set_json is_some fst snd] in *.

(** What a step does with the MARGO controls. *)
Lemma step_margo st e :
  pub_MARGO (fst (cstep ord st e)) = pub_MARGO st \/ pub_MARGO (fst (cstep ord st e)) = None \/
  exists m, pub_MARGO (fst (cstep ord st e)) = Some m /\ margo_from (ct_ini (fst (cstep ord st e))) m.
Proof.
  destruct e as [f|f]; cbn [cstep].
  - unfold init_from_file. destruct (read_ini st f) as [st1 [b|x]] eqn:R.
    2:{ left. unfold read_ini in R. destruct f; inversion R; subst. reflexivity. }
    assert (P1 : pub_MARGO st1 = pub_MARGO st) by (unfold read_ini in R; destruct f; inversion R; subst; reflexivity).
    destruct b; [|now left].
    destruct (make_MARGO ord (flags st1 true (ct_margo_ok st1) (ct_json_ok st1))) as [[m|]|x] eqn:M; [| |now left].
    + right; right. exists m. apply make_MARGO_sound in M; [|exact walk]. crush. destruct M as (_ & M & _).
      destruct (make_JSON _) as [[j|]|x]; crush; (split; [reflexivity|exact M]).
    + right; left. destruct (make_JSON _) as [[j|]|x]; reflexivity.
  - unfold update_from_file. destruct (ct_ini_ok st); [|now left]. cbn [negb].
    destruct (read_ini st f) as [st1 [b|x]] eqn:R.
    2:{ left. unfold read_ini in R. destruct f; inversion R; subst. reflexivity. }
    assert (P1 : pub_MARGO st1 = pub_MARGO st) by (unfold read_ini in R; destruct f; inversion R; subst; reflexivity).
    destruct b; [|now left]. destruct (ct_margo_ok st1) eqn:OK.
    + destruct (make_MARGO ord st1) as [[m|]|x] eqn:M; [| |now left].
      * right; right. exists m. apply make_MARGO_sound in M; [|exact walk]. destruct M as (_ & M & _). crush.
        unfold pub_MARGO. destruct (ct_json_ok st1); [destruct (make_JSON _) as [[j|]|x]|]; crush; rewrite OK; split; auto.
      * left. crush. destruct (ct_json_ok st1); [destruct (make_JSON _) as [[j|]|x]|]; crush; exact P1.
    + left. crush. destruct (ct_json_ok st1); [destruct (make_JSON _) as [[j|]|x]|]; crush; exact P1.
Qed.

Lemma step_json st e :
  pub_JSON (fst (cstep ord st e)) = pub_JSON st \/ pub_JSON (fst (cstep ord st e)) = None \/
  exists j, pub_JSON (fst (cstep ord st e)) = Some j /\ json_from (ct_ini (fst (cstep ord st e))) j.
Proof.
  destruct e as [f|f]; cbn [cstep].
  - unfold init_from_file. destruct (read_ini st f) as [st1 [b|x]] eqn:R.
    2:{ left. unfold read_ini in R. destruct f; inversion R; subst. reflexivity. }
    assert (P1 : pub_JSON st1 = pub_JSON st) by (unfold read_ini in R; destruct f; inversion R; subst; reflexivity).
    destruct b; [|now left].
    destruct (make_MARGO ord (flags st1 true (ct_margo_ok st1) (ct_json_ok st1))) as [m|x] eqn:M; [|now left].
    destruct (make_JSON _) as [[j|]|x] eqn:J.
    + right; right. exists j. apply make_JSON_sound in J. destruct J as [_ J]. split; [reflexivity|exact J].
    + now right; left.
    + left. destruct m; crush; exact P1.
  - unfold update_from_file. destruct (ct_ini_ok st); [|now left]. cbn [negb].
    destruct (read_ini st f) as [st1 [b|x]] eqn:R.
    2:{ left. unfold read_ini in R. destruct f; inversion R; subst. reflexivity. }
    assert (P1 : pub_JSON st1 = pub_JSON st) by (unfold read_ini in R; destruct f; inversion R; subst; reflexivity).
    destruct b; [|now left].
    destruct (if ct_margo_ok st1 then make_MARGO ord st1 else Ok None) as [m|x] eqn:M; [|now left].
    assert (OKJ : ct_json_ok (set_margo st1 m) = ct_json_ok st1) by (now destruct m).
    assert (P2 : pub_JSON (set_margo st1 m) = pub_JSON st) by (rewrite <- P1; now destruct m).
    rewrite OKJ. destruct (ct_json_ok st1) eqn:OK; [|now left].
    destruct (make_JSON (set_margo st1 m)) as [[j|]|x] eqn:J; [|now left|now left].
    right; right. exists j. apply make_JSON_sound in J. destruct J as [_ J]. crush. split; [|exact J].
    unfold pub_JSON. crush. now rewrite OKJ.
Qed.

(** An update never withdraws controls. *)
Lemma update_ok_flags st f : ct_margo_ok (fst (update_from_file ord st f)) = ct_margo_ok st /\
  ct_json_ok (fst (update_from_file ord st f)) = ct_json_ok st.
Proof.
  unfold update_from_file. destruct (ct_ini_ok st); [|now split]. cbn [negb].
  destruct (read_ini st f) as [st1 [b|x]] eqn:R.
  2:{ unfold read_ini in R. destruct f; inversion R; subst. now split. }
  assert (P1 : ct_margo_ok st1 = ct_margo_ok st /\ ct_json_ok st1 = ct_json_ok st)
    by (unfold read_ini in R; destruct f; inversion R; subst; now split).
  destruct b; [|exact P1].
  destruct (if ct_margo_ok st1 then make_MARGO ord st1 else Ok None) as [m|x]; [|exact P1].
  destruct (if ct_json_ok (set_margo st1 m) then make_JSON (set_margo st1 m) else Ok None) as [j|x];
    destruct m; try destruct j; exact P1.
Qed.

(** What has been read. *)
Lemma step_ini st e : ct_ini_ok st = true -> i_sections (ct_ini st) <> [] ->
  ct_ini_ok (fst (cstep ord st e)) = true /\ ct_ini (fst (cstep ord st e)) = merge (ct_ini st) (content (file_of_event e)).
Proof.
  intros OK NE.
  assert (R : forall f, ct_ini (fst (read_ini st f)) = merge (ct_ini st) (content f) /\ ct_ini_ok (fst (read_ini st f)) = true /\
              (snd (read_ini st f) = Ok true \/ snd (read_ini st f) = Err EValue)).
  { intros f. destruct f as [|i|i]; cbn [read_ini fst snd content ct_ini ct_ini_ok].
    - rewrite merge_empty. split; [reflexivity|]. split; [exact OK|]. left. now rewrite nonempty_len.
    - split; [reflexivity|]. split; [exact OK|]. left. now rewrite nonempty_len by (apply merge_nonempty; now left).
    - split; [reflexivity|]. split; [exact OK|]. now right. }
  destruct e as [f|f]; cbn [cstep file_of_event].
  - unfold init_from_file. destruct (R f) as (I & O & B). destruct (read_ini st f) as [st1 r]. cbn [fst snd] in *.
    destruct B as [->| ->]; [|now split].
    destruct (make_MARGO ord _) as [[m|]|x]; [destruct (make_JSON _) as [[j|]|x]|destruct (make_JSON _) as [[j|]|x]|]; crush; split; auto.
  - unfold update_from_file. rewrite OK. cbn [negb]. destruct (R f) as (I & O & B). destruct (read_ini st f) as [st1 r]. cbn [fst snd] in *.
    destruct B as [->| ->]; [|now split].
    destruct (if ct_margo_ok st1 then make_MARGO ord st1 else Ok None) as [m|x]; [|now split].
    destruct (if ct_json_ok (set_margo st1 m) then make_JSON (set_margo st1 m) else Ok None) as [j|x];
      destruct m; try destruct j; crush; split; auto.
Qed.
Lemma loaded_ini h : loaded h -> ct_ini_ok (cafter ord h) = true /\ ct_ini (cafter ord h) = configuration h /\ i_sections (configuration h) <> [].
Proof.
  intros (i & r & -> & NE). induction r as [|e r IH] using rev_ind.
  - assert (X : merge ini_empty i = configuration [Init (Parsed i)]) by reflexivity.
    assert (N : i_sections (merge ini_empty i) <> []) by (apply merge_nonempty; now right).
    unfold cafter. cbn [fold_left]. unfold init_from_file. cbn [read_ini]. change (ct_ini controls_init) with ini_empty.
    rewrite nonempty_len by exact N. rewrite <- X.
    destruct (make_MARGO ord _) as [[m|]|x]; [destruct (make_JSON _) as [[j|]|x]|destruct (make_JSON _) as [[j|]|x]|]; crush; auto.
  - destruct IH as (A & B & C). rewrite app_comm_cons, cafter_snoc, configuration_snoc, <- B.
    destruct (step_ini (cafter ord (Init (Parsed i) :: r)) e A ltac:(now rewrite B)) as (D & E).
    split; [exact D|]. split; [exact E|]. rewrite B. apply merge_nonempty. now left.
Qed.
End Ord.

(** ** C41: atomic updates *)

(** [update_from_file] leaves what was published, or replaces it by controls that a complete
    configuration gives; also when it raises. *)
Theorem C41_update : forall ord h f, walk_keys ord -> loaded h ->
  (pub_MARGO (cafter ord (h ++ [Update f])) = pub_MARGO (cafter ord h) \/
   exists m, pub_MARGO (cafter ord (h ++ [Update f])) = Some m /\ margo_from (configuration (h ++ [Update f])) m) /\
  (pub_JSON (cafter ord (h ++ [Update f])) = pub_JSON (cafter ord h) \/
   exists j, pub_JSON (cafter ord (h ++ [Update f])) = Some j /\ json_from (configuration (h ++ [Update f])) j).
Proof.
  intros ord h f W L. destruct (loaded_ini ord h L) as (A & B & C).
  destruct (step_ini ord (cafter ord h) (Update f) A ltac:(now rewrite B)) as (_ & E).
  rewrite cafter_snoc, configuration_snoc, <- B, <- E.
  destruct (update_ok_flags ord (cafter ord h) f) as (F & G). change (update_from_file ord (cafter ord h) f) with (cstep ord (cafter ord h) (Update f)) in F, G.
  split.
  - destruct (step_margo ord W (cafter ord h) (Update f)) as [X|[X|X]]; [auto| |auto].
    left. rewrite X. unfold pub_MARGO in *. rewrite F in X. destruct (ct_margo_ok (cafter ord h)); congruence.
  - destruct (step_json ord (cafter ord h) (Update f)) as [X|[X|X]]; [auto| |auto].
    left. rewrite X. unfold pub_JSON in *. rewrite G in X. destruct (ct_json_ok (cafter ord h)); congruence.
Qed.
Print Assumptions C41_update.

(** It does replace them if the configuration is complete. *)
Theorem C41_replaced : forall ord h f m, walk_keys ord -> loaded h -> (forall i, f <> Broken i) ->
  pub_MARGO (cafter ord h) = Some m -> margo_complete (configuration (h ++ [Update f])) ->
  (exists m', pub_MARGO (cafter ord (h ++ [Update f])) = Some m' /\ margo_from (configuration (h ++ [Update f])) m') /\
  (forall j j', pub_JSON (cafter ord h) = Some j -> json_from (configuration (h ++ [Update f])) j' ->
     pub_JSON (cafter ord (h ++ [Update f])) = Some j').
Proof.
  intros ord h f m W L NB P Cm. destruct (loaded_ini ord h L) as (A & B & C).
  rewrite cafter_snoc, configuration_snoc in *. rewrite <- B in *. cbn [cstep file_of_event] in *. set (st := cafter ord h) in *.
  assert (MO : ct_margo_ok st = true) by (unfold pub_MARGO in P; destruct (ct_margo_ok st); congruence).
  unfold update_from_file. rewrite A. cbn [negb].
  assert (R : exists st1, read_ini st f = (st1, Ok true) /\ ct_ini st1 = merge (ct_ini st) (content f) /\ ct_ini_ok st1 = true /\
              ct_margo_ok st1 = true /\ ct_json_ok st1 = ct_json_ok st).
  { destruct f as [|i|i]; cbn [read_ini content].
    - exists st. rewrite merge_empty, nonempty_len by exact C. auto.
    - eexists. rewrite nonempty_len by (apply merge_nonempty; now left). split; [reflexivity|]. cbn. auto.
    - now elim (NB i). }
  destruct R as (st1 & R & I1 & O1 & M1 & J1). rewrite R, M1. rewrite <- I1 in Cm.
  destruct (make_MARGO_complete ord W st1 O1 Cm) as (m' & M). rewrite M.
  pose proof (make_MARGO_sound ord W st1 m' M) as (_ & S & _).
  change (ct_json_ok (set_margo st1 (Some m'))) with (ct_json_ok st1). rewrite J1. split.
  - exists m'. rewrite <- I1. unfold pub_MARGO.
    destruct (if ct_json_ok st then make_JSON (set_margo st1 (Some m')) else Ok None) as [[j|]|x];
      cbn [fst set_json set_margo ct_margo_ok ct_margo]; rewrite M1; auto.
  - intros j j' Pj Fj. assert (JO : ct_json_ok st = true) by (unfold pub_JSON in Pj; destruct (ct_json_ok st); congruence).
    rewrite JO, (make_JSON_complete (set_margo st1 (Some m')) j' O1).
    2:{ cbn [set_margo ct_ini]. now rewrite I1. }
    unfold pub_JSON. cbn [fst set_json ct_json_ok set_margo ct_json]. now rewrite J1, JO.
Qed.
Print Assumptions C41_replaced.

(** After any history the published channel table is for satellites 1..24. *)
Theorem C41_channels : forall ord h m, walk_keys ord -> pub_MARGO (cafter ord h) = Some m ->
  forall sat, zget (glo_lit_tab m) sat <> None <-> 1 <= sat <= 24.
Proof.
  intros ord h m W. revert m. induction h as [|e h IH] using rev_ind; intros m P; [discriminate|].
  rewrite cafter_snoc in P. destruct (step_margo ord W (cafter ord h) e) as [X|[X|(m' & X & F)]].
  - apply IH. congruence.
  - congruence.
  - replace m with m' by congruence. exact (from_covers _ _ F).
Qed.
Print Assumptions C41_channels.

(** Both are published, or nothing is handed to the converter. *)
Theorem C41_boxed : forall ord h, pub_boxed (cafter ord h) =
  match pub_MARGO (cafter ord h), pub_JSON (cafter ord h) with Some m, Some j => Some (m, j) | _, _ => None end.
Proof.
  intros ord h. unfold pub_boxed, pub_MARGO, pub_JSON. now destruct (ct_margo_ok _), (ct_json_ok _).
Qed.
Print Assumptions C41_boxed.

(** ** C48: the controls are what the INI files say *)

(** Loading a file publishes MARGO controls exactly when it is complete. *)
Theorem C48_loading : forall ord i, walk_keys ord ->
  (margo_complete (configuration [Init (Parsed i)]) <-> pub_MARGO (cafter ord [Init (Parsed i)]) <> None) /\
  (forall m, pub_MARGO (cafter ord [Init (Parsed i)]) = Some m -> margo_from (configuration [Init (Parsed i)]) m) /\
  (forall j, pub_MARGO (cafter ord [Init (Parsed i)]) <> None ->
     (pub_JSON (cafter ord [Init (Parsed i)]) = Some j <-> json_from (configuration [Init (Parsed i)]) j)).
Proof.
  intros ord i W. change (configuration [Init (Parsed i)]) with (merge ini_empty i).
  unfold cafter. cbn [fold_left]. unfold init_from_file. cbn [read_ini]. change (ct_ini controls_init) with ini_empty.
  destruct (negb (zlen (i_sections (merge ini_empty i)) =? 0)) eqn:N; cbn [fst].
  - match goal with |- context[make_MARGO ord ?x] => set (st := x) end.
    assert (O : ct_ini_ok st = true) by reflexivity. assert (I : ct_ini st = merge ini_empty i) by reflexivity.
    destruct (make_MARGO ord st) as [[m|]|x] eqn:M.
    + pose proof (make_MARGO_sound ord W st m M) as (_ & F & Cm). rewrite I in F, Cm.
      match goal with |- context[make_JSON ?x] => set (st2 := x) end.
      assert (P : forall s, s = (fst match make_JSON st2 with
         | Ok j => (flags (set_json st2 j) (ct_ini_ok st2) (ct_margo_ok st2) (is_some j), Ok tt)
         | Err e => (st2, Err e) end) -> pub_MARGO s = Some m).
      { intros s ->. destruct (make_JSON st2) as [[j|]|x]; reflexivity. }
      rewrite (P _ eq_refl). split; [split; [discriminate|auto]|]. split; [intros m' X; inversion X; now subst|].
      intros j _. split.
      * destruct (make_JSON st2) as [[j'|]|x] eqn:J; try discriminate. intros X. inversion X; subst j'.
        apply make_JSON_sound in J. destruct J as [_ J]. exact J.
      * intros J. assert (J' : json_from (ct_ini st2) j) by exact J. rewrite (make_JSON_complete st2 j eq_refl J'). reflexivity.
    + assert (X : ~ margo_complete (merge ini_empty i)).
      { intros Cm. destruct (make_MARGO_complete ord W st O Cm) as (m & M'). congruence. }
      assert (P : forall s, pub_MARGO (fst match make_JSON s with
         | Ok j => (flags (set_json s j) (ct_ini_ok s) (ct_margo_ok s) (is_some j), Ok tt)
         | Err e => (s, Err e) end) = pub_MARGO s).
      { intros s. destruct (make_JSON s) as [[j|]|x]; reflexivity. }
      rewrite P. match goal with |- context[pub_MARGO ?s] => change (pub_MARGO s) with (@None margo_controls) end.
      split; [split; [tauto|intros Q; now elim Q]|split; [discriminate|intros j Q; now elim Q]].
    + assert (X : ~ margo_complete (merge ini_empty i)).
      { intros Cm. destruct (make_MARGO_complete ord W st O Cm) as (m & M'). congruence. }
      match goal with |- context[pub_MARGO ?s] => change (pub_MARGO s) with (@None margo_controls) end.
      split; [split; [tauto|intros Q; now elim Q]|split; [discriminate|intros j Q; now elim Q]].
  - assert (X : ~ margo_complete (merge ini_empty i)).
    { intros (_ & _ & (v & z & (own & V & _) & _) & _). destruct (i_sections (merge ini_empty i)) as [|s r]; [discriminate V|].
      unfold zlen in N. cbn [length] in N. rewrite (proj2 (Z.eqb_neq _ _)) in N by lia. discriminate. }
    match goal with |- context[pub_MARGO ?s] => change (pub_MARGO s) with (@None margo_controls) end.
      split; [split; [tauto|intros Q; now elim Q]|split; [discriminate|intros j Q; now elim Q]].
Qed.
Print Assumptions C48_loading.

(** Whatever the order in which the options are walked.  Missing: two options for one satellite. *)
Lemma from_unique i m1 m2 : unaliased i -> margo_from i m1 -> margo_from i m2 -> same_margo m1 m2.
Proof.
  intros U F1 F2. pose proof (from_covers _ _ F1) as C1. pose proof (from_covers _ _ F2) as C2.
  destruct F1 as (A1 & _ & (v1 & V1 & I1) & (h1 & H1 & B1) & (l1 & L1 & D1)).
  destruct F2 as (A2 & _ & (v2 & V2 & I2) & (h2 & H2 & B2) & (l2 & L2 & D2)).
  assert (SU : forall s o a b, says i s o a -> says i s o b -> a = b).
  { intros s o a b X Y. apply says_iff in X. apply says_iff in Y. congruence. }
  assert (IU : forall v a b, is_int_text v a -> is_int_text v b -> a = b).
  { intros v a b X Y. apply py_int_iff in X. apply py_int_iff in Y. congruence. }
  assert (BU : forall v a b, is_bool_text v a -> is_bool_text v b -> a = b).
  { intros v a b X Y. apply bool_iff in X. apply bool_iff in Y. congruence. }
  rewrite <- (SU _ _ _ _ V1 V2) in I2. rewrite <- (SU _ _ _ _ H1 H2) in B2. rewrite <- (SU _ _ _ _ L1 L2) in D2.
  split; [eauto|]. split; [eauto|]. split; [eauto|]. intros sat.
  destruct (zget (glo_lit_tab m1) sat) as [k1|] eqn:E1.
  - assert (S : 1 <= sat <= 24) by (apply C1; congruence).
    destruct (A1 sat S) as (key1 & w1 & x1 & P1 & N1 & X1 & Y1). destruct (A2 sat S) as (key2 & w2 & x2 & P2 & N2 & X2 & Y2).
    pose proof (U _ _ _ _ _ S P1 P2 N1 N2) as K. subst key2. rewrite <- (SU _ _ _ _ P1 P2) in X2.
    pose proof (IU _ _ _ X1 X2). congruence.
  - destruct (zget (glo_lit_tab m2) sat) as [k2|] eqn:E2; [|reflexivity]. exfalso. apply (C1 sat); [apply C2; congruence|exact E1].
Qed.

Definition same_result (r1 r2 : res (option margo_controls)) : Prop :=
  match r1, r2 with
  | Err _, Err _ => True
  | Ok m1, Ok m2 => same_published m1 m2
  | _, _ => False
  end.
Lemma make_same ord1 ord2 s1 s2 : walk_keys ord1 -> walk_keys ord2 -> ct_ini s1 = ct_ini s2 -> ct_ini_ok s1 = ct_ini_ok s2 ->
  unaliased (ct_ini s1) -> same_result (make_MARGO ord1 s1) (make_MARGO ord2 s2).
Proof.
  intros W1 W2 I O U.
  assert (Some_iff : forall ordA ordB sA sB, walk_keys ordA -> walk_keys ordB -> ct_ini sA = ct_ini sB -> ct_ini_ok sA = ct_ini_ok sB ->
    forall m, make_MARGO ordA sA = Ok (Some m) -> exists m', make_MARGO ordB sB = Ok (Some m')).
  { intros ordA ordB sA sB WA WB IA OA m M. apply make_MARGO_sound in M; [|exact WA]. destruct M as (X & _ & Y).
    apply make_MARGO_complete; [exact WB|congruence|congruence]. }
  assert (Lit_iff : forall ordA ordB sA sB, walk_keys ordA -> walk_keys ordB -> ct_ini sA = ct_ini sB ->
    forall r, literals (ct_ini sA) (ordA (options (ct_ini sA) "LITERALS")) 0 [] = Ok r ->
    exists r', literals (ct_ini sB) (ordB (options (ct_ini sB) "LITERALS")) 0 [] = Ok r' /\ (fst r = 0xFFFFFF <-> fst r' = 0xFFFFFF)).
  { intros ordA ordB sA sB WA WB IA [mask lt] L. destruct (literals_inv _ _ _ _ _ _ L table_start) as (T & F & A).
    rewrite <- IA. destruct (literals_ok (ct_ini sA) (ordB (options (ct_ini sA) "LITERALS")) 0 []) as (mask' & lt' & L' & _ & Y).
    { intros key K. apply A. apply ord_in; [exact WA|]. now apply ord_in in K. }
    destruct (literals_inv _ _ _ _ _ _ L' table_start) as (T' & F' & A').
    destruct (literals_ok (ct_ini sA) (ordA (options (ct_ini sA) "LITERALS")) 0 [] A) as (mask2 & lt2 & L2 & _ & Y2).
    rewrite L in L2. assert (mask2 = mask) by congruence. assert (lt2 = lt) by congruence. subst mask2 lt2.
    exists (mask', lt'). split; [exact L'|]. cbn [fst]. rewrite (mask_full _ _ T), (mask_full _ _ T').
    split; intros Full sat S.
    - destruct (zget lt sat) as [k|] eqn:E; [|now elim (Full sat S)]. destruct (F sat k E) as [X|(key & K & N & _)]; [discriminate|].
      apply (Y key); [|exact N|exact S]. apply ord_in; [exact WB|]. now apply ord_in in K.
    - destruct (zget lt' sat) as [k|] eqn:E; [|now elim (Full sat S)]. destruct (F' sat k E) as [X|(key & K & N & _)]; [discriminate|].
      apply (Y2 key); [|exact N|exact S]. apply ord_in; [exact WA|]. now apply ord_in in K. }
  destruct (make_MARGO ord1 s1) as [[m1|]|x1] eqn:M1; destruct (make_MARGO ord2 s2) as [[m2|]|x2] eqn:M2; cbn [same_result same_published]; try exact Logic.I.
  - apply (from_unique (ct_ini s1)); [exact U| |].
    + now apply make_MARGO_sound in M1.
    + rewrite I. now apply make_MARGO_sound in M2.
  - destruct (Some_iff ord1 ord2 s1 s2 W1 W2 I O _ M1). congruence.
  - destruct (Some_iff ord1 ord2 s1 s2 W1 W2 I O _ M1). congruence.
  - destruct (Some_iff ord2 ord1 s2 s1 W2 W1 (eq_sym I) (eq_sym O) _ M2). congruence.
  - exfalso. revert M1 M2. unfold make_MARGO. rewrite O, I.
    destruct (negb (ct_ini_ok s2)); [discriminate|]. destruct (negb (has_section (ct_ini s2) "LITERALS")); [discriminate|].
    destruct (negb (has_section (ct_ini s2) "TIME")); [discriminate|]. destruct (negb (has_section (ct_ini s2) "MARGO")); [discriminate|].
    destruct (literals (ct_ini s2) (ord1 (options (ct_ini s2) "LITERALS")) 0 []) as [[mask lt]|] eqn:L1; cbn [bind]; [|discriminate].
    pose proof (Lit_iff ord1 ord2 s1 s2 W1 W2 I (mask, lt)) as LI. rewrite I in LI. specialize (LI L1). destruct LI as ([mask' lt'] & L2 & Q).
    rewrite L2. cbn [bind fst] in *. destruct (mask =? 16777215) eqn:E1; destruct (mask' =? 16777215) eqn:E2; cbn [negb].
    + destruct (getint _ _ _) as [[?|]|]; cbn [bind]; try (intros; discriminate).
      destruct (getboolean _ _ _) as [[?|]|]; cbn [bind]; try (intros; discriminate).
      destruct (getboolean _ _ _) as [[?|]|]; cbn [bind]; intros; discriminate.
    + apply Z.eqb_eq in E1. apply Z.eqb_neq in E2. tauto.
    + apply Z.eqb_eq in E2. apply Z.eqb_neq in E1. tauto.
    + intros; discriminate.
  - destruct (Some_iff ord2 ord1 s2 s1 W2 W1 (eq_sym I) (eq_sym O) _ M2). congruence.
  - exfalso. revert M1 M2. unfold make_MARGO. rewrite O, I.
    destruct (negb (ct_ini_ok s2)); [discriminate|]. destruct (negb (has_section (ct_ini s2) "LITERALS")); [discriminate|].
    destruct (negb (has_section (ct_ini s2) "TIME")); [discriminate|]. destruct (negb (has_section (ct_ini s2) "MARGO")); [discriminate|].
    destruct (literals (ct_ini s2) (ord2 (options (ct_ini s2) "LITERALS")) 0 []) as [[mask lt]|] eqn:L2; cbn [bind]; [|discriminate].
    pose proof (Lit_iff ord2 ord1 s2 s1 W2 W1 (eq_sym I) (mask, lt) L2) as LI. rewrite I in LI. destruct LI as ([mask' lt'] & L1 & Q).
    rewrite L1. cbn [bind fst] in *. destruct (mask' =? 16777215) eqn:E1; destruct (mask =? 16777215) eqn:E2; cbn [negb].
    + destruct (getint _ _ _) as [[?|]|]; cbn [bind]; try (intros; discriminate).
      destruct (getboolean _ _ _) as [[?|]|]; cbn [bind]; try (intros; discriminate).
      destruct (getboolean _ _ _) as [[?|]|]; cbn [bind]; intros; discriminate.
    + apply Z.eqb_eq in E1. apply Z.eqb_neq in E2. tauto.
    + apply Z.eqb_eq in E2. apply Z.eqb_neq in E1. tauto.
    + intros; discriminate.
Qed.

(** The states that two orders lead to. *)
Definition same_state (s1 s2 : controls) : Prop :=
  ct_ini s1 = ct_ini s2 /\ ct_ini_ok s1 = ct_ini_ok s2 /\ ct_margo_ok s1 = ct_margo_ok s2 /\ ct_json_ok s1 = ct_json_ok s2 /\
  ct_json s1 = ct_json s2 /\ same_margo (ct_margo s1) (ct_margo s2).
Lemma same_margo_refl m : same_margo m m.
Proof. repeat split. Qed.
Lemma make_JSON_same s1 s2 : ct_ini s1 = ct_ini s2 -> ct_ini_ok s1 = ct_ini_ok s2 -> make_JSON s1 = make_JSON s2.
Proof. intros I O. unfold make_JSON. now rewrite I, O. Qed.
Lemma read_same s1 s2 f : same_state s1 s2 ->
  same_state (fst (read_ini s1 f)) (fst (read_ini s2 f)) /\ snd (read_ini s1 f) = snd (read_ini s2 f).
Proof.
  intros S. pose proof S as (I & O & M & J & K & L). destruct f as [|i|i]; cbn [read_ini fst snd].
  - rewrite I. split; [exact S|reflexivity].
  - rewrite I. split; [|reflexivity]. unfold same_state. cbn. repeat split; auto; apply L.
  - rewrite I. split; [|reflexivity]. unfold same_state. cbn. repeat split; auto; apply L.
Qed.

Lemma cstep_same ord1 ord2 s1 s2 e : walk_keys ord1 -> walk_keys ord2 -> same_state s1 s2 ->
  unaliased (ct_ini (fst (cstep ord1 s1 e))) -> same_state (fst (cstep ord1 s1 e)) (fst (cstep ord2 s2 e)).
Proof.
  intros W1 W2 S U.
  assert (Tail : forall t1 t2 b, same_state t1 t2 -> same_state
    (fst match make_JSON t1 with Ok j => (flags (set_json t1 j) (ct_ini_ok t1) (ct_margo_ok t1) (is_some j), Ok tt) | Err e => (t1, Err (A:=unit) e) end)
    (fst match make_JSON t2 with Ok j => (flags (set_json t2 j) (ct_ini_ok t2) (ct_margo_ok t2) (is_some j), Ok tt) | Err e => (t2, Err (A:=unit) e) end) /\
    same_state
    (fst match (if b : bool then make_JSON t1 else Ok None) with Ok j => (set_json t1 j, Ok tt) | Err e => (t1, Err (A:=unit) e) end)
    (fst match (if b then make_JSON t2 else Ok None) with Ok j => (set_json t2 j, Ok tt) | Err e => (t2, Err (A:=unit) e) end)).
  { intros t1 t2 b (I & O & M & J & K & L). rewrite (make_JSON_same t1 t2 I O).
    split; [|destruct b]; try destruct (make_JSON t2) as [[j|]|x]; unfold same_state; cbn; auto 8. }
  destruct e as [f|f]; cbn [cstep] in *.
  - unfold init_from_file in *. destruct (read_same s1 s2 f S) as (S' & E).
    destruct (read_ini s1 f) as [t1 r1]. destruct (read_ini s2 f) as [t2 r2]. cbn [fst snd] in *. subst r2.
    destruct r1 as [b|x]; [|exact S']. pose proof S' as (I & O & M & J & K & L). rewrite M, J in *.
    destruct b; [|unfold same_state; cbn; auto 8].
    set (u1 := flags t1 true (ct_margo_ok t2) (ct_json_ok t2)) in *. set (u2 := flags t2 true (ct_margo_ok t2) (ct_json_ok t2)).
    assert (Ui : unaliased (ct_ini u1)).
    { destruct (make_MARGO ord1 u1) as [m1|x1]; [|exact U]. match type of U with context[make_JSON ?s] => destruct (make_JSON s) as [[j|]|x] end;
        destruct m1; exact U. }
    assert (R : same_result (make_MARGO ord1 u1) (make_MARGO ord2 u2)) by (apply make_same; auto).
    clear U. destruct (make_MARGO ord1 u1) as [m1|x1]; destruct (make_MARGO ord2 u2) as [m2|x2]; cbn [same_result] in R; try tauto.
    + apply (Tail _ _ true). destruct m1 as [m1|]; destruct m2 as [m2|]; cbn [same_published] in R; try tauto; unfold same_state; cbn; auto 8.
    + unfold same_state; cbn; auto 8.
  - unfold update_from_file in *. pose proof S as (I0 & O0 & _). rewrite <- O0. destruct (ct_ini_ok s1); [|exact S]. cbn [negb] in *.
    destruct (read_same s1 s2 f S) as (S' & E).
    destruct (read_ini s1 f) as [t1 r1]. destruct (read_ini s2 f) as [t2 r2]. cbn [fst snd] in *. subst r2.
    destruct r1 as [b|x]; [|exact S']. pose proof S' as (I & O & M & J & K & L).
    destruct b; [|exact S']. rewrite M in *.
    assert (Ui : unaliased (ct_ini t1)).
    { destruct (if ct_margo_ok t2 then make_MARGO ord1 t1 else Ok None) as [m1|x1]; [|exact U].
      destruct (if ct_json_ok (set_margo t1 m1) then make_JSON (set_margo t1 m1) else Ok None) as [[j|]|x]; destruct m1; exact U. }
    clear U.
    assert (R : same_result (if ct_margo_ok t2 then make_MARGO ord1 t1 else Ok None) (if ct_margo_ok t2 then make_MARGO ord2 t2 else Ok None)).
    { destruct (ct_margo_ok t2); [now apply make_same|exact Logic.I]. }
    destruct (if ct_margo_ok t2 then make_MARGO ord1 t1 else Ok None) as [m1|x1];
    destruct (if ct_margo_ok t2 then make_MARGO ord2 t2 else Ok None) as [m2|x2]; cbn [same_result] in R; try tauto.
    assert (SJ : ct_json_ok (set_margo t1 m1) = ct_json_ok (set_margo t2 m2)) by (destruct m1, m2; exact J).
    rewrite SJ. apply Tail.
    destruct m1 as [m1|]; destruct m2 as [m2|]; cbn [same_published] in R; try tauto; unfold same_state; cbn; auto 8.
Qed.

(** After every history in which no file ever made two options for one satellite, the published
    controls are the same whatever the order in which sets are walked. *)
Theorem C48_determined_partial : forall ord1 ord2 h, walk_keys ord1 -> walk_keys ord2 -> loaded h ->
  (forall h1 h2, h = h1 ++ h2 -> loaded h1 -> unaliased (configuration h1)) ->
  same_published (pub_MARGO (cafter ord1 h)) (pub_MARGO (cafter ord2 h)) /\
  pub_JSON (cafter ord1 h) = pub_JSON (cafter ord2 h).
Proof.
  intros ord1 ord2 h W1 W2 L U.
  assert (S : same_state (cafter ord1 h) (cafter ord2 h)).
  { destruct L as (i & r & -> & NE). induction r as [|e r IH] using rev_ind.
    - assert (Ld : loaded [Init (Parsed i)]) by (exists i, []; auto).
      pose proof (U [Init (Parsed i)] [] eq_refl Ld) as Ui.
      destruct (loaded_ini ord1 _ Ld) as (_ & X & _).
      change [Init (Parsed i)] with ([] ++ [Init (Parsed i)]). rewrite !cafter_snoc. apply cstep_same; auto.
      + repeat split.
      + rewrite <- cafter_snoc. cbn [app]. now rewrite X.
    - assert (Ld : loaded ((Init (Parsed i) :: r) ++ [e])) by (exists i, (r ++ [e]); auto).
      rewrite app_comm_cons in *. rewrite !cafter_snoc. apply cstep_same; auto.
      + apply IH. intros h1 h2 E. apply (U h1 (h2 ++ [e])). rewrite E. now rewrite app_assoc.
      + rewrite <- cafter_snoc. destruct (loaded_ini ord1 _ Ld) as (_ & X & _). rewrite X.
        apply (U _ []); [now rewrite app_nil_r|exact Ld]. }
  destruct S as (_ & _ & M & J & K & SM). unfold pub_MARGO, pub_JSON. rewrite M, J, K.
  destruct (ct_margo_ok (cafter ord2 h)); cbn [same_published]; auto.
Qed.
Print Assumptions C48_determined_partial.

(** ** Examples and counterexamples *)

(** defaults.ini:1-54 *)
Definition default_literals : list (text * text) :=
  [(ustr "r1", ustr "1"); (ustr "r2", ustr "-4"); (ustr "r3", ustr "5"); (ustr "r4", ustr "6"); (ustr "r5", ustr "1"); (ustr "r6", ustr "-4"); (ustr "r7", ustr "5"); (ustr "r8", ustr "6"); (ustr "r9", ustr "-2"); (ustr "r10", ustr "-7"); (ustr "r11", ustr "0"); (ustr "r12", ustr "-1"); (ustr "r13", ustr "-2"); (ustr "r14", ustr "-7"); (ustr "r15", ustr "0"); (ustr "r16", ustr "-1"); (ustr "r17", ustr "4"); (ustr "r18", ustr "-3"); (ustr "r19", ustr "3"); (ustr "r20", ustr "2"); (ustr "r21", ustr "4"); (ustr "r22", ustr "-3"); (ustr "r23", ustr "3"); (ustr "r24", ustr "2")].
Definition ini_of (lits defs : list (text * text)) : ini :=
  {| i_sections :=
       [(ustr "MARGO", [(ustr "hca", ustr "false"); (ustr "lock_time", ustr "false")]);
        (ustr "JSON", [(ustr "enable_pretty_view", ustr "true"); (ustr "enable_hdr_data", ustr "true"); (ustr "enable_aux_data", ustr "true")]);
        (ustr "TIME", [(ustr "gps2utc", ustr "18")]);
        (ustr "LITERALS", lits)];
     i_defaults := defs |}.
Definition default_ini : ini := ini_of default_literals [].
Definition only (section option value : string) : ini :=
  {| i_sections := [(ustr section, [(ustr option, ustr value)])]; i_defaults := [] |}.

(** Loading defaults.ini publishes its controls.  An update that switches the lock-time files on
    is followed, one with an unreadable number or truth value is not (and raises); a MARGO
    problem keeps the JSON part of the same file from being used. *)
Definition ident (l : list text) : list text := l.
Lemma ident_walk : walk_keys ident.
Proof. intros l; apply Permutation_refl. Qed.
Lemma rev_walk : walk_keys (@rev text).
Proof. intros l; apply Permutation_rev. Qed.
Lemma complete_check i : match make_MARGO ident {| ct_margo := default_margo; ct_json := ct_json controls_init; ct_ini := i;
    ct_ini_ok := true; ct_margo_ok := true; ct_json_ok := true |} with Ok (Some _) => true | _ => false end = true -> margo_complete i.
Proof.
  destruct (make_MARGO _ _) as [[m|]|x] eqn:M; try discriminate. intros _. now apply (make_MARGO_sound _ ident_walk) in M.
Qed.
Definition h0 : list cevent := [Init (Parsed default_ini)].
Example C41_nonvacuous :
  loaded h0 /\
  pub_MARGO (cafter ident h0) = Some {| half_cycle_enable := false; lock_time_enable := false; gps_utc_shift := 18;
    glo_lit_tab := glo_lit_tab default_margo |} /\
  margo_complete (configuration h0) /\
  (let h := h0 ++ [Update (Parsed (only "MARGO" "lock_time" "ON"))] in
   option_map lock_time_enable (pub_MARGO (cafter ident h)) = Some true /\
   margo_complete (configuration h)) /\
  (let h := h0 ++ [Update (Parsed (only "TIME" "gps2utc" "1 8"))] in
   snd (cstep ident (cafter ident h0) (Update (Parsed (only "TIME" "gps2utc" "1 8")))) = Err EValue /\
   pub_boxed (cafter ident h) = pub_boxed (cafter ident h0)) /\
  pub_boxed (cafter ident (h0 ++ [Update (Broken (only "JSON" "enable_aux_data" "no"))])) = pub_boxed (cafter ident h0).
Proof.
  split; [exists default_ini, []; split; [reflexivity|discriminate]|].
  split; [vm_compute; reflexivity|].
  split; [apply complete_check; vm_compute; reflexivity|].
  split; [split; [vm_compute; reflexivity|apply complete_check; vm_compute; reflexivity]|].
  split; [split; vm_compute; reflexivity|vm_compute; reflexivity].
Qed.

(** With "R1" and "R01" in one file the channel of satellite 1 depends on the order in which
    Python walks the set of options. *)
Definition aliased_ini : ini := ini_of (default_literals ++ [(ustr "r01", ustr "3")]) [].
Theorem C48_aliases_refuted : exists i ord1 ord2 m1 m2, walk_keys ord1 /\ walk_keys ord2 /\
  pub_MARGO (cafter ord1 [Init (Parsed i)]) = Some m1 /\ pub_MARGO (cafter ord2 [Init (Parsed i)]) = Some m2 /\
  zget (glo_lit_tab m1) 1 = Some 3 /\ zget (glo_lit_tab m2) 1 = Some 1.
Proof.
  exists aliased_ini, ident, (@rev text).
  destruct (pub_MARGO (cafter ident [Init (Parsed aliased_ini)])) as [m1|] eqn:E1; [|vm_compute in E1; discriminate].
  destruct (pub_MARGO (cafter (@rev text) [Init (Parsed aliased_ini)])) as [m2|] eqn:E2; [|vm_compute in E2; discriminate].
  exists m1, m2. split; [exact ident_walk|]. split; [exact rev_walk|]. split; [reflexivity|]. split; [reflexivity|].
  vm_compute in E1. vm_compute in E2. inversion E1; subst m1. inversion E2; subst m2. split; reflexivity.
Qed.
Print Assumptions C48_aliases_refuted.

(** The hypotheses of [C48_determined_partial] hold for defaults.ini. *)
Definition names_of (i : ini) : list (option Z) :=
  map (fun k => match py_int (strip is_r k) with Ok z => Some z | Err _ => None end) (options i "LITERALS").
Lemma unaliased_check i : NoDup (names_of i) -> unaliased i.
Proof.
  intros N k1 v1 k2 v2 sat S V1 V2 N1 N2.
  assert (I1 : In k1 (options i "LITERALS")) by (apply options_iff; eauto).
  assert (I2 : In k2 (options i "LITERALS")) by (apply options_iff; eauto).
  apply names_iff in N1. apply names_iff in N2. unfold names_of in N.
  assert (X : forall (f : text -> option Z) l, NoDup (map f l) -> In k1 l -> In k2 l -> f k1 = f k2 -> k1 = k2).
  { intros f l. induction l as [|a l IH]; cbn; [tauto|]. intros ND A B E. inversion ND as [|? ? NI ND']; subst.
    destruct A as [->|A], B as [->|B]; auto.
    - exfalso; apply NI. rewrite E. now apply in_map.
    - exfalso; apply NI. rewrite <- E. now apply in_map. }
  apply (X _ _ N I1 I2). now rewrite N1, N2.
Qed.
Example C48_nonvacuous : loaded h0 /\ (forall h1 h2, h0 = h1 ++ h2 -> loaded h1 -> unaliased (configuration h1)) /\
  pub_boxed (cafter (@rev text) h0) <> None.
Proof.
  split; [exists default_ini, []; split; [reflexivity|discriminate]|]. split; [|vm_compute; discriminate].
  intros h1 h2 E (i & r & -> & _). assert (H : Init (Parsed i) :: r = h0).
  { unfold h0 in *. destruct r; [cbn in E; congruence|discriminate E]. }
  rewrite H. apply unaliased_check.
  assert (D : names_of (configuration h0) = map (fun n => Some (Z.of_nat n)) (seq 1 24)) by (vm_compute; reflexivity).
  rewrite D. apply FinFun.Injective_map_NoDup; [intros a b X; injection X; lia|apply seq_NoDup].
Qed.

(** An option in section DEFAULT that is not a satellite makes loading fail (defaults.ini:2 warns
    against it), although the code means to ignore it. *)
Theorem C48_default_section_refuted : exists lits defs, pub_boxed (cafter ident [Init (Parsed (ini_of lits []))]) <> None /\
  init_from_file ident controls_init (Parsed (ini_of lits defs)) = (cafter ident [Init (Parsed (ini_of lits defs))], Err EValue) /\
  pub_boxed (cafter ident [Init (Parsed (ini_of lits defs))]) = None.
Proof.
  exists default_literals, [(ustr "station", ustr "7")]. split; [vm_compute; discriminate|]. split; vm_compute; reflexivity.
Qed.
Print Assumptions C48_default_section_refuted.

(** ** C49: published controls can be used for printing *)

(** If the channels given by the files are within -1000..1000 (all that exist are within -7..6),
    the published controls are ones with which every decoded message is printed (C32_files,
    C38_products, ...).  Missing: other channel numbers. *)
Theorem C49_usable_partial : forall i m, margo_from i m ->
  (forall key v k, says i "LITERALS" key v -> is_int_text v k -> -1000 <= k <= 1000) -> controls_ok m.
Proof.
  intros i m (A & _) B sat S. destruct (A sat S) as (key & v & k & V & _ & I & E). exists k. split; [exact E|]. eauto.
Qed.
Print Assumptions C49_usable_partial.

(** Channel -2848 is accepted, and makes the carrier frequency zero: the conversion of a file is
    broken off at the first GLONASS message. *)
Definition zero_ini : ini := ini_of (dset text_eqb default_literals (ustr "r24") (ustr "-2848")) [].
Definition glonass_run (m : margo_controls) : list (string * list Z) * statistics * res bool :=
  match factory "MARGO" true sample_os {| box_margo := m; box_json := box_json sample_box |} with
  | Ok (Some c) => let '(s, r) := decode_rtcm_file (fun l => l) no_faults (regular_file sample_1087) (started c) in
                   (output_files (r_world s), get_statistics (r_conv s), r)
  | _ => ([], get_statistics (sample_conv "MARGO"), Err EValue)
  end.
Theorem C49_zero_carrier_refuted : exists i m, walk_keys ident /\ pub_MARGO (cafter ident [Init (Parsed i)]) = Some m /\
  glonass_run m = ([], {| decoding_attempts := 1; parsing_errors := 0; decoding_errors := 0; printing_attempts := 1; printing_errors := 1 |}, Ok false).
Proof.
  exists zero_ini.
  destruct (pub_MARGO (cafter ident [Init (Parsed zero_ini)])) as [m|] eqn:E; [|vm_compute in E; discriminate].
  exists m. split; [exact ident_walk|]. split; [reflexivity|]. vm_compute in E. inversion E; subst m. vm_compute. reflexivity.
Qed.
Print Assumptions C49_zero_carrier_refuted.
Example C49_nonvacuous : exists m, pub_MARGO (cafter ident h0) = Some m /\ margo_from (configuration h0) m /\ controls_ok m /\
  snd (fst (glonass_run m)) =
    {| decoding_attempts := 1; parsing_errors := 0; decoding_errors := 0; printing_attempts := 1; printing_errors := 0 |} /\
  (0 < length (fst (fst (glonass_run m))))%nat.
Proof.
  destruct (pub_MARGO (cafter ident h0)) as [m|] eqn:E; [|vm_compute in E; discriminate].
  assert (F : margo_from (configuration h0) m) by (apply (C48_loading ident default_ini ident_walk); exact E).
  exists m. split; [reflexivity|]. split; [exact F|].
  vm_compute in E. assert (M : m = {| half_cycle_enable := false; lock_time_enable := false; gps_utc_shift := 18;
    glo_lit_tab := glo_lit_tab default_margo |}) by (inversion E; reflexivity). subst m.
  split; [exact PropertiesMargo.default_controls_ok|]. split; [vm_compute; reflexivity|vm_compute; lia].
Qed.
