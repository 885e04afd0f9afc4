(** * PropertiesOrder: C48, exactly when the controls do not depend on the order of a set. *)
From Coq Require Import Lia Permutation.
From Verif Require Import PyBase PyDict PyVal MargoModel JsonModel PrinterModel MainModel ControlsModel ControlsSpec ControlsProofs PropertiesControls SessionModel SessionSpec PropertiesSession PropertiesConsole PropertiesUserIni.
Local Open Scope string_scope.
Local Open Scope list_scope.
Local Open Scope Z_scope.

(** All options of LITERALS for one satellite ("R1", "R01") have the same channel. *)
Definition agreed (i : ini) : Prop := forall k1 v1 z1 k2 v2 z2 sat, 1 <= sat <= 24 ->
  says i "LITERALS" k1 v1 -> names_satellite k1 sat -> is_int_text v1 z1 ->
  says i "LITERALS" k2 v2 -> names_satellite k2 sat -> is_int_text v2 z2 -> z1 = z2.

Lemma int_same v a b : is_int_text v a -> is_int_text v b -> a = b.
Proof. intros A B. apply py_int_iff in A, B. congruence. Qed.
Lemma bool_same v a b : is_bool_text v a -> is_bool_text v b -> a = b.
Proof. intros A B. apply bool_iff in A, B. congruence. Qed.
Lemma says_same i s o v w : says i s o v -> says i s o w -> v = w.
Proof. intros A B. apply says_iff in A, B. congruence. Qed.

Lemma margo_from_same i m1 m2 : agreed i -> margo_from i m1 -> margo_from i m2 -> same_margo m1 m2.
Proof.
  intros G (A1 & D1 & (v1 & V1 & I1) & (w1 & W1 & B1) & (x1 & X1 & C1)) (A2 & D2 & (v2 & V2 & I2) & (w2 & W2 & B2) & (x2 & X2 & C2)).
  assert (v1 = v2) by (eapply says_same; eassumption). assert (w1 = w2) by (eapply says_same; eassumption). assert (x1 = x2) by (eapply says_same; eassumption).
  subst v2 w2 x2. split; [eapply bool_same; eassumption|]. split; [eapply bool_same; eassumption|]. split; [eapply int_same; eassumption|].
  intros sat. destruct (Z_le_dec 1 sat) as [L|L].
  - destruct (Z_le_dec sat 24) as [U|U].
    + destruct (A1 sat (conj L U)) as (k1 & u1 & z1 & P1 & Q1 & R1 & S1). destruct (A2 sat (conj L U)) as (k2 & u2 & z2 & P2 & Q2 & R2 & S2).
      rewrite S1, S2. f_equal. exact (G k1 u1 z1 k2 u2 z2 sat (conj L U) P1 Q1 R1 P2 Q2 R2).
    + assert (N1 : zget (glo_lit_tab m1) sat = None) by (destruct (zget (glo_lit_tab m1) sat) eqn:E; [|reflexivity]; specialize (D1 sat); rewrite E in D1; assert (1 <= sat <= 24) by (apply D1; discriminate); lia).
      assert (N2 : zget (glo_lit_tab m2) sat = None) by (destruct (zget (glo_lit_tab m2) sat) eqn:E; [|reflexivity]; specialize (D2 sat); rewrite E in D2; assert (1 <= sat <= 24) by (apply D2; discriminate); lia).
      congruence.
  - assert (N1 : zget (glo_lit_tab m1) sat = None) by (destruct (zget (glo_lit_tab m1) sat) eqn:E; [|reflexivity]; specialize (D1 sat); rewrite E in D1; assert (1 <= sat <= 24) by (apply D1; discriminate); lia).
    assert (N2 : zget (glo_lit_tab m2) sat = None) by (destruct (zget (glo_lit_tab m2) sat) eqn:E; [|reflexivity]; specialize (D2 sat); rewrite E in D2; assert (1 <= sat <= 24) by (apply D2; discriminate); lia).
    congruence.
Qed.

(** ** A set walked so that a given key comes last *)
Definition last_key (k : text) (l : list text) : list text :=
  filter (fun x => negb (text_eqb x k)) l ++ filter (fun x => text_eqb x k) l.
Lemma last_key_walk k : walk_keys (last_key k).
Proof.
  intros l. induction l as [|a r IH]; [apply perm_nil|]. unfold last_key. cbn [filter]. destruct (text_eqb a k); cbn [negb app].
  - apply Permutation_cons_app. exact IH.
  - apply perm_skip. exact IH.
Qed.

Lemma literals_app i a : forall b m lt, literals i (a ++ b) m lt = (p <- literals i a m lt ;; literals i b (fst p) (snd p)).
Proof.
  induction a as [|k r IH]; intros b m lt; [reflexivity|]. cbn [app literals]. destruct (py_int (strip is_r k)) as [sat|]; [|reflexivity]. cbn [bind].
  destruct ((0 <? sat) && (sat <=? 24)); [|apply IH]. destruct (getint i "LITERALS" k) as [[z|]|]; cbn [bind]; [apply IH|reflexivity|reflexivity].
Qed.
Lemma literals_same i k sat z : py_int (strip is_r k) = Ok sat -> 1 <= sat <= 24 -> getint i "LITERALS" k = Ok (Some z) ->
  forall b m lt m' lt', Forall (fun x => x = k) b -> (b <> [] \/ zget lt sat = Some z) -> literals i b m lt = Ok (m', lt') -> zget lt' sat = Some z.
Proof.
  intros P R G. induction b as [|x r IH]; intros m lt m' lt' F B L; cbn [literals] in L.
  - destruct B as [B|B]; [now elim B|]. assert (lt' = lt) by congruence. now subst.
  - inversion F as [|? ? -> F']; subst. rewrite P in L. cbn [bind] in L.
    replace ((0 <? sat) && (sat <=? 24)) with true in L by (symmetry; apply andb_true_iff; rewrite Z.ltb_lt, Z.leb_le; lia).
    rewrite G in L. cbn [bind] in L. refine (IH _ _ _ _ F' _ L).
    right. rewrite zget_zset, Z.eqb_refl. reflexivity.
Qed.

Lemma make_tab ord st m : make_MARGO ord st = Ok (Some m) ->
  exists mask, literals (ct_ini st) (ord (options (ct_ini st) "LITERALS")) 0 [] = Ok (mask, glo_lit_tab m).
Proof.
  unfold make_MARGO. destruct (negb (ct_ini_ok st)); [discriminate|]. destruct (negb (has_section _ "LITERALS")); [discriminate|].
  destruct (negb (has_section _ "TIME")); [discriminate|]. destruct (negb (has_section _ "MARGO")); [discriminate|].
  destruct (literals _ _ 0 []) as [[mask lt]|]; cbn [bind]; [|discriminate]. destruct (negb (mask =? 16777215)); [discriminate|].
  destruct (getint _ _ _) as [[?|]|]; cbn [bind]; try discriminate. destruct (getboolean _ _ (ustr "hca")) as [[?|]|]; cbn [bind]; try discriminate.
  destruct (getboolean _ _ (ustr "lock_time")) as [[?|]|]; cbn [bind]; try discriminate. intros H. exists mask.
  assert (E : lt = glo_lit_tab m) by (injection H as <-; reflexivity). now rewrite E.
Qed.

Lemma last_channel i m k v z sat : 1 <= sat <= 24 -> pub_MARGO (cafter (last_key k) [Init (Parsed i)]) = Some m ->
  says (configuration [Init (Parsed i)]) "LITERALS" k v -> names_satellite k sat -> is_int_text v z -> zget (glo_lit_tab m) sat = Some z.
Proof.
  intros R P V N I. change (configuration [Init (Parsed i)]) with (merge ini_empty i) in V.
  revert P. unfold cafter. cbn [fold_left]. unfold init_from_file. cbn [read_ini]. change (ct_ini controls_init) with ini_empty.
  destruct (negb (zlen (i_sections (merge ini_empty i)) =? 0)); cbn [fst]; [|discriminate].
  match goal with |- context[make_MARGO (last_key k) ?x] => set (st := x) end.
  assert (E : ct_ini st = merge ini_empty i) by reflexivity.
  destruct (make_MARGO (last_key k) st) as [[m'|]|] eqn:M; [|destruct (make_JSON _) as [[?|]|]; discriminate|discriminate].
  intros P. assert (m' = m) by (destruct (make_JSON _) as [[?|]|]; cbn in P; congruence). subst m'. clear P.
  destruct (make_tab _ _ _ M) as (mask & L). rewrite E in L. unfold last_key in L. rewrite literals_app in L.
  destruct (literals _ (filter _ _) 0 []) as [[m1 l1]|]; cbn [bind fst snd] in L; [|discriminate].
  apply names_iff in N. apply (literals_same _ k sat z N R (proj2 (getint_iff _ _ _ z) (ex_intro _ v (conj V I))) _ _ _ _ _) in L; [exact L| |].
  - apply Forall_forall. intros x X. apply filter_In in X. now apply text_eqb_spec.
  - left. intros X. assert (O : In k (options (merge ini_empty i) "LITERALS")) by (apply options_iff; eauto).
    assert (Y : In k (filter (fun x => text_eqb x k) (options (merge ini_empty i) "LITERALS"))) by (apply filter_In; split; [exact O|now apply text_eqb_spec]).
    rewrite X in Y. destruct Y.
Qed.

(** The MARGO controls that a complete file gives are the same in whatever order Python walks the
    set of options, exactly if all options for one satellite agree. *)
Theorem C48_exact : forall i, margo_complete (configuration [Init (Parsed i)]) ->
  ((forall ord1 ord2, walk_keys ord1 -> walk_keys ord2 ->
      same_published (pub_MARGO (cafter ord1 [Init (Parsed i)])) (pub_MARGO (cafter ord2 [Init (Parsed i)]))) <->
   agreed (configuration [Init (Parsed i)])).
Proof.
  intros i Cm. assert (P : forall ord, walk_keys ord -> exists m, pub_MARGO (cafter ord [Init (Parsed i)]) = Some m /\ margo_from (configuration [Init (Parsed i)]) m).
  { intros ord W. destruct (C48_loading ord i W) as (A & B & _). apply A in Cm.
    destruct (pub_MARGO (cafter ord [Init (Parsed i)])) as [m|] eqn:E; [|now elim Cm]. exists m. split; [reflexivity|]. now apply B. }
  split.
  - intros D k1 v1 z1 k2 v2 z2 sat R S1 N1 I1 S2 N2 I2.
    destruct (P _ (last_key_walk k1)) as (m1 & E1 & _). destruct (P _ (last_key_walk k2)) as (m2 & E2 & _).
    specialize (D _ _ (last_key_walk k1) (last_key_walk k2)). rewrite E1, E2 in D. destruct D as (_ & _ & _ & T). specialize (T sat).
    rewrite (last_channel i m1 k1 v1 z1 sat R E1 S1 N1 I1), (last_channel i m2 k2 v2 z2 sat R E2 S2 N2 I2) in T. congruence.
  - intros G ord1 ord2 W1 W2. destruct (P ord1 W1) as (m1 & E1 & F1). destruct (P ord2 W2) as (m2 & E2 & F2). rewrite E1, E2.
    cbn [same_published]. exact (margo_from_same _ m1 m2 G F1 F2).
Qed.
Print Assumptions C48_exact.

(** Whether a run has controls does not depend on the order. *)
Lemma defaults_any_order ord1 ord2 d c1 : walk_keys ord1 -> walk_keys ord2 -> main_controls ord1 d None = Ok (Some c1) ->
  exists c2, main_controls ord2 d None = Ok (Some c2).
Proof.
  intros W1 W2 E. destruct (C55_rule ord1 d Missing c1 W1 (eq_trans (missing_user ord1 d) E)) as (_ & _ & A & B). cbv zeta in A, B.
  change (configuration [Init d; Update Missing]) with (merge (merge ini_empty (content d)) ini_empty) in A, B.
  destruct d as [|d|d].
  - exfalso. revert E. vm_compute. discriminate.
  - pose proof A as A'. pose proof B as B'. rewrite merge_empty in A', B'.
    destruct (C55_user_file_partial ord2 d ini_empty (box_json c1) (box_json c1) W2 A' B' A B) as ((m & M & _) & _). eexists. exact M.
  - exfalso. revert E. unfold main_controls, init_from_file. cbn [read_ini]. discriminate.
Qed.
Lemma any_order ord1 ord2 d u c1 : walk_keys ord1 -> walk_keys ord2 -> main_controls ord1 d u = Ok (Some c1) ->
  exists c2, main_controls ord2 d u = Ok (Some c2).
Proof.
  intros W1 W2 E. destruct u as [u|]; [|exact (defaults_any_order ord1 ord2 d c1 W1 W2 E)].
  destruct (C55_rule ord1 d u c1 W1 E) as ((c & D) & _). destruct (defaults_any_order ord1 ord2 d c W1 W2 D) as (c2 & D2).
  apply (C55_accepts ord2 d u W2 (ex_intro _ c2 D2)). apply (C55_accepts ord1 d u W1 (ex_intro _ c D)). eauto.
Qed.

(** The same for the controls of a run, with or without -i: in every order there are controls or
    in none; and they are the same ones if all options for one satellite agree. *)
Theorem C48_runs : forall ord1 ord2 d u c1, walk_keys ord1 -> walk_keys ord2 -> main_controls ord1 d u = Ok (Some c1) ->
  exists c2, main_controls ord2 d u = Ok (Some c2) /\
    (agreed (configuration (Init d :: match u with Some u => [Update u] | None => [] end)) ->
     same_margo (box_margo c1) (box_margo c2) /\ box_json c1 = box_json c2).
Proof.
  intros ord1 ord2 d u c1 W1 W2 E1. destruct (any_order ord1 ord2 d u c1 W1 W2 E1) as (c2 & E2). exists c2. split; [exact E2|]. intros G.
  assert (X : forall ord c, walk_keys ord -> main_controls ord d u = Ok (Some c) ->
     margo_from (configuration (Init d :: match u with Some u => [Update u] | None => [] end)) (box_margo c) /\
     json_from (configuration (Init d :: match u with Some u => [Update u] | None => [] end)) (box_json c)).
  { intros ord c W E. destruct u as [u|].
    - destruct (C55_rule ord d u c W E) as (_ & A & _ & B). auto.
    - destruct (C55_rule ord d Missing c W (eq_trans (missing_user ord d) E)) as (_ & A & _ & B). cbv zeta in A, B.
      change (configuration [Init d; Update Missing]) with (merge (merge ini_empty (content d)) ini_empty) in A, B. rewrite merge_empty in A, B. auto. }
  destruct (X ord1 c1 W1 E1) as (F1 & J1). destruct (X ord2 c2 W2 E2) as (F2 & J2). split; [exact (margo_from_same _ _ _ G F1 F2)|].
  destruct J1 as ((a1 & A1 & A2) & (b1 & B1 & B2) & (e1 & C1 & C2)). destruct J2 as ((a2 & A3 & A4) & (b2 & B3 & B4) & (e2 & C3 & C4)).
  rewrite (says_same _ _ _ _ _ A1 A3) in A2. rewrite (says_same _ _ _ _ _ B1 B3) in B2. rewrite (says_same _ _ _ _ _ C1 C3) in C2.
  destruct (box_json c1), (box_json c2). cbn in *. f_equal; eapply bool_same; eassumption.
Qed.
Print Assumptions C48_runs.

(** Both cases exist: defaults.ini, and the file with "R1" and "R01". *)
Example C48_exact_nonvacuous :
  margo_complete (configuration [Init (Parsed default_ini)]) /\ agreed (configuration [Init (Parsed default_ini)]) /\
  margo_complete (configuration [Init (Parsed aliased_ini)]) /\ ~ agreed (configuration [Init (Parsed aliased_ini)]).
Proof.
  assert (A : margo_complete (configuration [Init (Parsed default_ini)])).
  { apply (C48_loading ident default_ini ident_walk). vm_compute. discriminate. }
  assert (B : margo_complete (configuration [Init (Parsed aliased_ini)])).
  { apply (C48_loading ident aliased_ini ident_walk). vm_compute. discriminate. }
  split; [exact A|]. split; [|split; [exact B|]].
  - assert (U : unaliased (configuration [Init (Parsed default_ini)])).
    { apply unaliased_check. change [Init (Parsed default_ini)] with h0.
      assert (D : names_of (configuration h0) = map (fun n => Some (Z.of_nat n)) (seq 1 24)) by (vm_compute; reflexivity).
      rewrite D. apply FinFun.Injective_map_NoDup; [intros a b X; injection X; lia|apply seq_NoDup]. }
    intros k1 v1 z1 k2 v2 z2 sat R S1 N1 I1 S2 N2 I2. pose proof (U k1 v1 k2 v2 sat R S1 S2 N1 N2) as ->.
    rewrite (says_same _ _ _ _ _ S1 S2) in I1. exact (int_same _ _ _ I1 I2).
  - intros G. pose proof (proj2 (C48_exact aliased_ini B) G) as H. clear G. rename H into G.
    assert (E1 : match pub_MARGO (cafter ident [Init (Parsed aliased_ini)]) with Some m => zget (glo_lit_tab m) 1 = Some 3 | None => False end) by (vm_compute; reflexivity).
    assert (E2 : match pub_MARGO (cafter (@rev text) [Init (Parsed aliased_ini)]) with Some m => zget (glo_lit_tab m) 1 = Some 1 | None => False end) by (vm_compute; reflexivity).
    specialize (G ident (@rev text) ident_walk rev_walk).
    destruct (pub_MARGO (cafter ident [Init (Parsed aliased_ini)])); [|contradiction].
    destruct (pub_MARGO (cafter (@rev text) [Init (Parsed aliased_ini)])); [|contradiction].
    destruct G as (_ & _ & _ & T). specialize (T 1). congruence.
Qed.
