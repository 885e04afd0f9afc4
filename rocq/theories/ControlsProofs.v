(** * ControlsProofs: the conversions of controls.py meet their descriptions. *)
From Coq Require Import Permutation Lia.
From Verif Require Import PyBase PyDict PyVal MargoModel JsonModel ControlsModel ControlsSpec.
Local Open Scope string_scope.
Local Open Scope list_scope.
Local Open Scope Z_scope.

Lemma text_eqb_spec a b : text_eqb a b = true <-> a = b.
Proof. unfold text_eqb. destruct (list_eq_dec Z.eq_dec a b); split; congruence. Qed.

(** ** [strip] *)
Lemma drop_while_split f l : exists a, l = a ++ drop_while f l /\ Forall (fun c => f c = true) a.
Proof.
  induction l as [|c r (a & E & H)]; [now exists []|]. cbn [drop_while]. destruct (f c) eqn:F.
  - exists (c :: a). split; [now rewrite E at 1|now constructor].
  - now exists [].
Qed.
Lemma drop_while_head f l c r : drop_while f l = c :: r -> f c = false.
Proof.
  induction l as [|d t IH]; cbn [drop_while]; [discriminate|]. destruct (f d) eqn:F; [exact IH|].
  intros E; now inversion E; subst.
Qed.
Lemma drop_while_app f a l : Forall (fun c => f c = true) a -> drop_while f (a ++ l) = drop_while f l.
Proof. induction 1 as [|c r F _ IH]; [reflexivity|]. cbn [app drop_while]. now rewrite F. Qed.
Lemma drop_while_id f l : (forall c r, l = c :: r -> f c = false) -> drop_while f l = l.
Proof. destruct l as [|c r]; intros H; [reflexivity|]. cbn [drop_while]. now rewrite (H c r eq_refl). Qed.

Lemma strip_split f l : exists a b, l = a ++ strip f l ++ b /\ Forall (fun c => f c = true) (a ++ b) /\
  (forall c r, strip f l = c :: r -> f c = false) /\ (forall r c, strip f l = r ++ [c] -> f c = false).
Proof.
  unfold strip. destruct (drop_while_split f l) as (a & E & H).
  destruct (drop_while_split f (rev (drop_while f l))) as (b & E' & H').
  set (m := drop_while f l) in *. set (n := drop_while f (rev m)) in *.
  assert (M : m = rev n ++ rev b) by (rewrite <- rev_app_distr, <- E', rev_involutive; reflexivity).
  exists a, (rev b). split; [now rewrite <- M|]. split; [|split].
  - apply Forall_app. split; [exact H|]. apply Forall_rev. exact H'.
  - intros c r F. assert (X : m = c :: (r ++ rev b)) by (rewrite M, F; reflexivity).
    unfold m in X. now apply drop_while_head in X.
  - intros r c F. assert (X : n = c :: rev r) by (rewrite <- (rev_involutive n), F, rev_app_distr; reflexivity).
    unfold n in X. now apply drop_while_head in X.
Qed.

Lemma strip_unique f a n b : Forall (fun c => f c = true) (a ++ b) ->
  (forall c r, n = c :: r -> f c = false) -> (forall r c, n = r ++ [c] -> f c = false) ->
  n <> [] -> strip f (a ++ n ++ b) = n.
Proof.
  intros H Hd Tl N. apply Forall_app in H. destruct H as [Ha Hb]. unfold strip.
  rewrite drop_while_app by exact Ha.
  rewrite (drop_while_id f (n ++ b)).
  2:{ destruct n as [|c0 r0]; [congruence|]. intros c r E. inversion E; subst. now apply (Hd c r0). }
  rewrite rev_app_distr, drop_while_app by now apply Forall_rev.
  rewrite drop_while_id; [apply rev_involutive|].
  intros c r E. apply (Tl (rev r) c). rewrite <- (rev_involutive n), E. reflexivity.
Qed.

(** ** [int] *)
Fixpoint run (acc : Z) (us : bool) (l : text) : option (Z * bool) :=
  match l with
  | [] => Some (acc, us)
  | c :: r => if is_digit c then run (10 * acc + (c - 48)) false r
              else if (c =? 95) && negb us then run acc true r else None
  end.
Lemma digits_run acc us l : digits acc us l = match run acc us l with Some (z, false) => Some z | _ => None end.
Proof.
  revert acc us; induction l as [|c r IH]; intros acc us; cbn [digits run]; [now destruct us|].
  destruct (is_digit c); [apply IH|]. destruct ((c =? 95) && negb us); [apply IH|reflexivity].
Qed.
Lemma run_app acc us l m : run acc us (l ++ m) = match run acc us l with Some (z, u) => run z u m | None => None end.
Proof.
  revert acc us; induction l as [|c r IH]; intros acc us; cbn [app run]; [reflexivity|].
  destruct (is_digit c); [apply IH|]. destruct ((c =? 95) && negb us); [apply IH|reflexivity].
Qed.
Lemma is_digit_iff c : is_digit c = true <-> 48 <= c <= 57.
Proof. unfold is_digit. rewrite Bool.andb_true_iff, !Z.leb_le. lia. Qed.
Lemma run_of l z : digits_of l z -> run 0 true l = Some (z, false).
Proof.
  assert (D : forall d, 0 <= d <= 9 -> is_digit (48 + d) = true) by (intros d H; apply is_digit_iff; lia).
  induction 1 as [d H|l z d _ IH H|l z d _ IH H].
  - cbn [run]. rewrite D by exact H. do 2 f_equal. lia.
  - rewrite run_app, IH. cbn [run]. rewrite D by exact H. do 2 f_equal. lia.
  - rewrite run_app, IH. cbn [run]. change (is_digit 95) with false. change ((95 =? 95) && negb false) with true.
    cbv iota. rewrite D by exact H. do 2 f_equal. lia.
Qed.
Lemma run_inv l : (forall z, run 0 true l = Some (z, false) -> digits_of l z) /\
  (forall z, run 0 true l = Some (z, true) -> (l = [] /\ z = 0) \/ exists l', l = l' ++ [95] /\ digits_of l' z).
Proof.
  induction l as [|c l [IHf IHt]] using rev_ind.
  - split; intros z H; cbn in H; [congruence|]. left. split; [reflexivity|congruence].
  - assert (D : is_digit c = true -> exists d, 0 <= d <= 9 /\ c = 48 + d).
    { intros H. apply is_digit_iff in H. exists (c - 48). lia. }
    split; intros z H; rewrite run_app in H; destruct (run 0 true l) as [[y u]|]; try discriminate; cbn [run] in H.
    + destruct (is_digit c) eqn:E; [|destruct ((c =? 95) && negb u); discriminate].
      destruct (D eq_refl) as (d & Hd & ->). assert (Hz : z = 10 * y + d) by (assert (z = 10 * y + (48 + d - 48)) by congruence; lia). clear H. subst z.
      destruct u.
      * destruct (IHt y eq_refl) as [[-> ->]|(l' & -> & L)].
        -- cbn [app]. replace (10 * 0 + d) with d by lia. now apply one_digit.
        -- rewrite <- app_assoc. now constructor.
      * constructor; auto.
    + destruct (is_digit c); [discriminate|]. destruct (c =? 95) eqn:E; [|discriminate]. destruct u; [discriminate|].
      cbn in H. inversion H; subst z. apply Z.eqb_eq in E. subst c. right. exists l. auto.
Qed.
Lemma digits_iff l z : digits 0 true l = Some z <-> digits_of l z.
Proof.
  rewrite digits_run. split.
  - destruct (run 0 true l) as [[y [|]]|] eqn:E; try discriminate. intros H; inversion H; subst. now apply run_inv.
  - intros H. now rewrite (run_of _ _ H).
Qed.

Lemma digits_of_head l z : digits_of l z -> exists c r, l = c :: r /\ 48 <= c <= 57.
Proof.
  induction 1 as [d H|l z d _ (c & r & -> & I) H|l z d _ (c & r & -> & I) H].
  - exists (48 + d), []. split; [reflexivity|lia].
  - exists c, (r ++ [48 + d]). split; [reflexivity|lia].
  - exists c, (r ++ [95; 48 + d]). split; [reflexivity|lia].
Qed.
Lemma digits_of_last l z : digits_of l z -> exists r c, l = r ++ [c] /\ 48 <= c <= 57.
Proof.
  intros D; inversion D as [d H|m y d _ H|m y d _ H]; subst.
  - exists [], (48 + z). split; [reflexivity|lia].
  - exists m, (48 + d). split; [reflexivity|lia].
  - exists (m ++ [95]), (48 + d). split; [now rewrite <- app_assoc|lia].
Qed.

Lemma white_iff c : is_white c = true <-> 9 <= c <= 13 \/ 28 <= c <= 32.
Proof. unfold is_white. rewrite Bool.orb_true_iff, !Bool.andb_true_iff, !Z.leb_le. lia. Qed.
Lemma white_not c : ~ (9 <= c <= 13 \/ 28 <= c <= 32) -> is_white c = false.
Proof. intros H. destruct (is_white c) eqn:E; [|reflexivity]. now apply white_iff in E. Qed.

Lemma py_int_iff s z : py_int s = Ok z <-> is_int_text s z.
Proof.
  unfold py_int, is_int_text. split.
  - destruct (strip_split is_white s) as (a & b & E & W & _ & _). apply Forall_app in W. destruct W as [Wa Wb].
    assert (Wh : forall l, Forall (fun c => is_white c = true) l -> white l)
      by (intros l H; eapply Forall_impl; [|exact H]; intros c; apply white_iff).
    apply Wh in Wa. apply Wh in Wb. intros P.
    destruct (strip is_white s) as [|c r]; [discriminate|].
    destruct (c =? 43) eqn:C1; [|destruct (c =? 45) eqn:C2].
    + apply Z.eqb_eq in C1; subst c. destruct (digits 0 true r) as [n|] eqn:D; [|discriminate]. apply digits_iff in D.
      inversion P; subst. exists a, [43], r, z, b. repeat split; auto.
    + apply Z.eqb_eq in C2; subst c. destruct (digits 0 true r) as [n|] eqn:D; [|discriminate]. apply digits_iff in D.
      inversion P; subst. exists a, [45], r, n, b. repeat split; auto 6.
    + destruct (digits 0 true (c :: r)) as [n|] eqn:D; [|discriminate]. apply digits_iff in D.
      inversion P; subst. exists a, [], (c :: r), z, b. repeat split; auto.
  - intros (w1 & sign & l & n & w2 & -> & W1 & W2 & D & S).
    assert (ST : strip is_white (w1 ++ (sign ++ l) ++ w2) = sign ++ l).
    { apply strip_unique.
      - apply Forall_app; split; [eapply Forall_impl; [|exact W1]|eapply Forall_impl; [|exact W2]]; intros c; apply white_iff.
      - intros c r E. apply white_not. destruct (digits_of_head _ _ D) as (c0 & r0 & -> & I).
        destruct S as [[-> _]|[[-> _]|[-> _]]]; inversion E; subst; lia.
      - intros r c E. apply white_not. destruct (digits_of_last _ _ D) as (r0 & c0 & -> & I).
        rewrite app_assoc in E. apply app_inj_tail in E. destruct E as [_ <-]. lia.
      - destruct (digits_of_head _ _ D) as (c0 & r0 & -> & _). now destruct sign. }
    rewrite <- app_assoc in ST. cbv zeta. rewrite ST. clear ST.
    pose proof (proj2 (digits_iff l n) D) as DI. destruct (digits_of_head _ _ D) as (c0 & r0 & L & I).
    destruct S as [[-> ->]|[[-> ->]|[-> ->]]]; cbn [app].
    + rewrite L. destruct (c0 =? 43) eqn:C1; [apply Z.eqb_eq in C1; lia|]. destruct (c0 =? 45) eqn:C2; [apply Z.eqb_eq in C2; lia|].
      now rewrite <- L, DI.
    + cbn [Z.eqb Pos.eqb]. now rewrite DI.
    + cbn [Z.eqb Pos.eqb]. now rewrite DI.
Qed.

(** The names of satellites. *)
Lemma names_iff key sat : py_int (strip is_r key) = Ok sat <-> names_satellite key sat.
Proof.
  assert (R : forall c, is_r c = true <-> c = 114 \/ c = 82).
  { intros c. unfold is_r. now rewrite Bool.orb_true_iff, !Z.eqb_eq. }
  assert (NR : forall c, is_r c = false <-> c <> 114 /\ c <> 82).
  { intros c. unfold is_r. now rewrite Bool.orb_false_iff, !Z.eqb_neq. }
  unfold names_satellite. split.
  - intros P. apply py_int_iff in P. destruct (strip_split is_r key) as (a & b & E & F & H & T).
    exists a, (strip is_r key), b. split; [exact E|]. split; [eapply Forall_impl; [|exact F]; intros c; apply R|].
    split; [intros c r X; apply NR; eauto|]. split; [intros r c X; apply NR; eauto|exact P].
  - intros (a & n & b & -> & F & H & T & P). apply py_int_iff in P.
    rewrite strip_unique; [exact P| | | |].
    + eapply Forall_impl; [|exact F]. intros c; apply R.
    + intros c r X; apply NR; eauto.
    + intros r c X; apply NR; eauto.
    + intros ->. discriminate.
Qed.

Lemma bool_iff s b : py_boolean s = Ok b <-> is_bool_text s b.
Proof.
  unfold py_boolean, is_bool_text, BOOLEAN_STATES, true_texts, false_texts. cbn [dget map].
  assert (E : forall x y, text_eqb x y = true \/ text_eqb x y = false) by (intros x y; destruct (text_eqb x y); auto).
  assert (NE : forall x y, text_eqb x y = false -> x <> y).
  { intros x y H X. apply text_eqb_spec in X. congruence. }
  split.
  - repeat match goal with |- context[text_eqb ?x ?y] =>
      let H := fresh in destruct (text_eqb x y) eqn:H; [apply text_eqb_spec in H; rewrite H; intros X; inversion X; cbn [In]; tauto|] end.
    discriminate.
  - intros H.
    destruct b; cbn [In] in H; repeat (destruct H as [<-|H]; [reflexivity|]); destruct H.
Qed.

(** ** Options *)
Lemma says_iff i s o v : get_option i s o = Some v <-> says i s o v.
Proof.
  unfold get_option, says. destruct (dget text_eqb (i_sections i) (ustr s)) as [own|].
  - destruct (dget text_eqb own o) as [w|] eqn:O.
    + split; [intros H; exists own; rewrite O; auto|]. intros (own' & X & Y). inversion X; subst own'.
      rewrite O in Y. destruct Y as [Y|[Y _]]; congruence.
    + split; [intros H; exists own; rewrite O; auto|]. intros (own' & X & Y). inversion X; subst own'.
      rewrite O in Y. destruct Y as [Y|[_ Y]]; congruence.
  - split; [discriminate|]. intros (own' & X & _). discriminate.
Qed.

Lemma add_options_keys new old k : In k (map fst (add_options old new)) <-> In k (map fst old) \/ In k (map fst new).
Proof.
  unfold add_options. revert old; induction new as [|[k0 v0] r IH]; intros old; cbn [fold_left map fst In]; [tauto|].
  rewrite IH. cbn [fst snd].
  assert (X : In k (map fst (dset text_eqb old k0 v0)) <-> In k (map fst old) \/ k0 = k).
  { destruct (list_eq_dec Z.eq_dec k0 k) as [<-|N].
    - split; [auto|]. intros _. destruct (in_dec (list_eq_dec Z.eq_dec) k0 (map fst (dset text_eqb old k0 v0))) as [I|NI]; [exact I|].
      apply (dget_None text_eqb text_eqb_spec) in NI. rewrite dget_dset_same in NI by exact text_eqb_spec. discriminate.
    - split.
      + intros I. left. destruct (in_dec (list_eq_dec Z.eq_dec) k (map fst old)) as [I'|NI]; [exact I'|].
        apply (dget_None text_eqb text_eqb_spec) in NI.
        rewrite <- (dget_dset_other text_eqb text_eqb_spec old k0 k v0 N) in NI.
        apply (dget_None text_eqb text_eqb_spec) in NI. tauto.
      + intros [I|I]; [|congruence]. destruct (in_dec (list_eq_dec Z.eq_dec) k (map fst (dset text_eqb old k0 v0))) as [I'|NI]; [exact I'|].
        apply (dget_None text_eqb text_eqb_spec) in NI.
        rewrite (dget_dset_other text_eqb text_eqb_spec old k0 k v0 N) in NI.
        apply (dget_None text_eqb text_eqb_spec) in NI. tauto. }
  rewrite X. tauto.
Qed.

Lemma options_iff i s key : In key (options i s) <-> exists v, says i s key v.
Proof.
  assert (X : In key (options i s) <-> exists v, get_option i s key = Some v).
  { unfold options, get_option. destruct (dget text_eqb (i_sections i) (ustr s)) as [own|].
    - rewrite add_options_keys. destruct (dget text_eqb own key) as [v|] eqn:O.
      + split; [eauto|]. intros _. left. apply (dget_In text_eqb text_eqb_spec) in O. apply (in_map fst) in O. exact O.
      + apply (dget_None text_eqb text_eqb_spec) in O. destruct (dget text_eqb (i_defaults i) key) as [v|] eqn:D.
        * split; [eauto|]. intros _. right. apply (dget_In text_eqb text_eqb_spec) in D. apply (in_map fst) in D. exact D.
        * apply (dget_None text_eqb text_eqb_spec) in D. split; [tauto|]. intros [v V]; discriminate.
    - cbn. split; [tauto|]. intros [v V]; discriminate. }
  rewrite X. split; intros [v V]; exists v; now apply says_iff.
Qed.

Lemma getint_iff i s o z : getint i s o = Ok (Some z) <-> exists v, says i s o v /\ is_int_text v z.
Proof.
  unfold getint. split.
  - destruct (get_option i s o) as [v|] eqn:E; [|discriminate]. apply says_iff in E.
    destruct (py_int v) as [y|] eqn:P; cbn; [|discriminate]. intros H; inversion H; subst. apply py_int_iff in P. eauto.
  - intros (v & V & P). apply says_iff in V. apply py_int_iff in P. rewrite V. now rewrite P.
Qed.
Lemma getboolean_iff i s o z : getboolean i s o = Ok (Some z) <-> exists v, says i s o v /\ is_bool_text v z.
Proof.
  unfold getboolean. split.
  - destruct (get_option i s o) as [v|] eqn:E; [|discriminate]. apply says_iff in E.
    destruct (py_boolean v) as [y|] eqn:P; cbn; [|discriminate]. intros H; inversion H; subst. apply bool_iff in P. eauto.
  - intros (v & V & P). apply says_iff in V. apply bool_iff in P. rewrite V. now rewrite P.
Qed.
Lemma has_section_iff i s : has_section i s = true <-> exists own, dget text_eqb (i_sections i) (ustr s) = Some own.
Proof. unfold has_section. destruct (dget text_eqb (i_sections i) (ustr s)) as [own|]; split; eauto; try discriminate. intros [o X]; discriminate. Qed.
Lemma says_section i s o v : says i s o v -> has_section i s = true.
Proof. intros (own & E & _). apply has_section_iff. eauto. Qed.

(** ** The channel table *)
Definition table_ok (mask : Z) (lt : list (Z * Z)) : Prop :=
  0 <= mask /\ (forall n, 0 <= n -> Z.testbit mask n = true <-> zget lt (n + 1) <> None) /\
  (forall sat, zget lt sat <> None -> 1 <= sat <= 24).

Lemma zget_zset {V} (d : list (Z * V)) k v k' : zget (zset d k v) k' = if k =? k' then Some v else zget d k'.
Proof.
  unfold zget, zset. destruct (k =? k') eqn:E.
  - apply Z.eqb_eq in E; subst. apply dget_dset_same. intros; apply Z.eqb_eq.
  - apply Z.eqb_neq in E. apply dget_dset_other; [intros; apply Z.eqb_eq|exact E].
Qed.

Lemma table_step mask lt sat k : 1 <= sat <= 24 -> table_ok mask lt ->
  table_ok (Z.lor mask (Z.shiftl 1 (sat - 1))) (zset lt sat k).
Proof.
  intros S (M & B & D). split; [|split].
  - apply Z.lor_nonneg. split; [exact M|]. apply Z.shiftl_nonneg. lia.
  - intros n N. rewrite Z.lor_spec, Z.shiftl_spec by exact N. rewrite zget_zset, Bool.orb_true_iff, (B n N).
    assert (T : Z.testbit 1 (n - (sat - 1)) = (n =? sat - 1)).
    { destruct (Z.lt_ge_cases (n - (sat - 1)) 0) as [X|X].
      - rewrite Z.testbit_neg_r by exact X. symmetry. apply Z.eqb_neq. lia.
      - destruct (Z.eq_dec (n - (sat - 1)) 0) as [E|E].
        + rewrite E. symmetry. apply Z.eqb_eq. lia.
        + rewrite (Z.bits_above_log2 1) by (cbn; lia). symmetry. apply Z.eqb_neq. lia. }
    rewrite T, Z.eqb_eq. destruct (sat =? n + 1) eqn:E.
    + apply Z.eqb_eq in E. split; [congruence|]. intros _. right; lia.
    + apply Z.eqb_neq in E. split; [intros [X|X]; [exact X|lia]|auto].
  - intros s. rewrite zget_zset. destruct (sat =? s) eqn:E; [apply Z.eqb_eq in E; lia|apply D].
Qed.

Lemma literals_inv i keys mask lt mask' lt' : literals i keys mask lt = Ok (mask', lt') -> table_ok mask lt ->
  table_ok mask' lt' /\
  (forall sat k, zget lt' sat = Some k -> zget lt sat = Some k \/
     exists key, In key keys /\ py_int (strip is_r key) = Ok sat /\ getint i "LITERALS" key = Ok (Some k)) /\
  (forall key, In key keys -> exists sat, py_int (strip is_r key) = Ok sat /\
     (1 <= sat <= 24 -> exists k, getint i "LITERALS" key = Ok (Some k))).
Proof.
  revert mask lt; induction keys as [|key r IH]; intros mask lt H T; cbn [literals] in H.
  - inversion H; subst. split; [exact T|]. split; [auto|]. intros key [].
  - destruct (py_int (strip is_r key)) as [sat|] eqn:P; cbn [bind] in H; [|discriminate].
    destruct ((0 <? sat) && (sat <=? 24)) eqn:C.
    + apply Bool.andb_true_iff in C. rewrite Z.ltb_lt, Z.leb_le in C.
      destruct (getint i "LITERALS" key) as [[k|]|] eqn:G; cbn [bind] in H; try discriminate.
      destruct (IH _ _ H (table_step mask lt sat k ltac:(lia) T)) as (T' & F & A). split; [exact T'|]. split.
      * intros s k' E. destruct (F s k' E) as [X|(key' & I & X)].
        -- rewrite zget_zset in X. destruct (sat =? s) eqn:S; [|auto]. apply Z.eqb_eq in S; subst s. inversion X; subst k'.
           right. exists key. split; [now left|]. split; [exact P|exact G].
        -- right. exists key'. split; [now right|exact X].
      * intros key' [<-|I]; [exists sat; split; [exact P|eauto]|now apply A].
    + destruct (IH _ _ H T) as (T' & F & A). split; [exact T'|]. split.
      * intros s k' E. destruct (F s k' E) as [X|(key' & I & X)]; [auto|]. right. exists key'. split; [now right|exact X].
      * intros key' [<-|I]; [exists sat; split; [exact P|]|now apply A].
        intros S. exfalso. apply Bool.andb_false_iff in C. rewrite Z.ltb_ge, Z.leb_gt in C. lia.
Qed.

Lemma literals_ok i keys mask lt : (forall key, In key keys -> exists sat, py_int (strip is_r key) = Ok sat /\
     (1 <= sat <= 24 -> exists k, getint i "LITERALS" key = Ok (Some k))) ->
  exists mask' lt', literals i keys mask lt = Ok (mask', lt') /\
    (forall sat, zget lt sat <> None -> zget lt' sat <> None) /\
    (forall key sat, In key keys -> py_int (strip is_r key) = Ok sat -> 1 <= sat <= 24 -> zget lt' sat <> None).
Proof.
  revert mask lt; induction keys as [|key r IH]; intros mask lt A; cbn [literals].
  - exists mask, lt. split; [reflexivity|]. split; [auto|]. intros key sat [].
  - destruct (A key (or_introl eq_refl)) as (sat & P & K). rewrite P. cbn [bind].
    assert (A' : forall key0, In key0 r -> exists sat0, py_int (strip is_r key0) = Ok sat0 /\
      (1 <= sat0 <= 24 -> exists k, getint i "LITERALS" key0 = Ok (Some k))) by (intros; apply A; now right).
    destruct ((0 <? sat) && (sat <=? 24)) eqn:C.
    + apply Bool.andb_true_iff in C. rewrite Z.ltb_lt, Z.leb_le in C. destruct (K ltac:(lia)) as [k G]. rewrite G. cbn [bind].
      destruct (IH (Z.lor mask (Z.shiftl 1 (sat - 1))) (zset lt sat k) A') as (m & l & E & X & Y).
      exists m, l. split; [exact E|]. split.
      * intros s S. apply X. rewrite zget_zset. destruct (sat =? s); [discriminate|exact S].
      * intros key' s [<-|I] Q R; [|eauto]. apply X. rewrite zget_zset. replace s with sat by congruence. now rewrite Z.eqb_refl.
    + destruct (IH mask lt A') as (m & l & E & X & Y). exists m, l. split; [exact E|]. split; [exact X|].
      intros key' s [<-|I] Q R; [|eauto]. exfalso. apply Bool.andb_false_iff in C. rewrite Z.ltb_ge, Z.leb_gt in C.
      assert (s = sat) by congruence. lia.
Qed.

Lemma mask_full mask lt : table_ok mask lt -> mask = 0xFFFFFF <-> (forall sat, 1 <= sat <= 24 -> zget lt sat <> None).
Proof.
  intros (M & B & D). split.
  - intros -> sat S. replace sat with ((sat - 1) + 1) by lia. apply B; [lia|].
    change 0xFFFFFF with (Z.ones 24). rewrite Z.ones_spec_low by lia. reflexivity.
  - intros A. apply Z.bits_inj'. intros n N. change 0xFFFFFF with (Z.ones 24).
    destruct (Z.lt_ge_cases n 24) as [X|X].
    + rewrite Z.ones_spec_low by lia. apply B; [exact N|]. apply A. lia.
    + rewrite Z.ones_spec_high by lia. destruct (Z.testbit mask n) eqn:E; [|reflexivity].
      apply B in E; [|exact N]. apply D in E. lia.
Qed.

Lemma table_start : table_ok 0 [].
Proof. split; [lia|]. split; [|intros sat H; now destruct H]. intros n N. rewrite Z.bits_0. split; [discriminate|intros H; now destruct H]. Qed.

(** ** [_make_MARGO], [_make_JSON] *)
Section Ord.
Variable ord : list text -> list text.
Hypothesis walk : walk_keys ord.

Lemma ord_in l k : In k (ord l) <-> In k l.
Proof. split; apply Permutation_in; [apply Permutation_sym|]; apply walk. Qed.

Lemma make_MARGO_sound st m : make_MARGO ord st = Ok (Some m) ->
  ct_ini_ok st = true /\ margo_from (ct_ini st) m /\ margo_complete (ct_ini st).
Proof.
  unfold make_MARGO. destruct (ct_ini_ok st); [|discriminate]. cbn [negb].
  destruct (has_section (ct_ini st) "LITERALS"); [|discriminate].
  destruct (has_section (ct_ini st) "TIME"); [|discriminate].
  destruct (has_section (ct_ini st) "MARGO"); [|discriminate]. cbn [negb].
  destruct (literals (ct_ini st) (ord (options (ct_ini st) "LITERALS")) 0 []) as [[mask lt]|] eqn:L; cbn [bind]; [|discriminate].
  destruct (literals_inv _ _ _ _ _ _ L table_start) as (T & F & A).
  destruct (mask =? 16777215) eqn:M; [|discriminate]. cbn [negb]. apply Z.eqb_eq in M.
  pose proof (proj1 (mask_full _ _ T) M) as Full.
  destruct (getint (ct_ini st) "TIME" (ustr "gps2utc")) as [[sh|]|] eqn:G1; cbn [bind]; try discriminate.
  destruct (getboolean (ct_ini st) "MARGO" (ustr "hca")) as [[hc|]|] eqn:G2; cbn [bind]; try discriminate.
  destruct (getboolean (ct_ini st) "MARGO" (ustr "lock_time")) as [[lk|]|] eqn:G3; cbn [bind]; try discriminate.
  intros H. assert (Hm : m = {| half_cycle_enable := hc; lock_time_enable := lk; gps_utc_shift := sh; glo_lit_tab := lt |}) by congruence.
  clear H. subst m. apply getint_iff in G1. apply getboolean_iff in G2. apply getboolean_iff in G3.
  assert (K : forall sat k, zget lt sat = Some k -> exists key value, says (ct_ini st) "LITERALS" key value /\
            names_satellite key sat /\ is_int_text value k).
  { intros sat k E. destruct (F sat k E) as [X|(key & I & P & G)]; [discriminate|].
    apply getint_iff in G. destruct G as (v & V & Iv). apply names_iff in P. exists key, v. auto. }
  split; [reflexivity|]. split.
  - split; [|split; [|auto]]; cbn [glo_lit_tab].
    + intros sat S. destruct (zget lt sat) as [k|] eqn:E; [|now apply Full in E].
      destruct (K sat k E) as (key & v & X). exists key, v, k. tauto.
    + apply T.
  - split; [|split; [|split; [|split]]].
    + intros key v V. destruct (A key) as (sat & P & Q).
      { apply ord_in. apply options_iff. eauto. }
      apply names_iff in P. exists sat. split; [exact P|]. intros S. destruct (Q S) as (k & G). apply getint_iff in G.
      destruct G as (v' & V' & Iv). apply says_iff in V. apply says_iff in V'. replace v with v' by congruence. eauto.
    + intros sat S. destruct (zget lt sat) as [k|] eqn:E; [|now apply Full in E].
      destruct (K sat k E) as (key & v & X). exists key, v. tauto.
    + destruct G1 as (v & V). exists v, sh. exact V.
    + destruct G2 as (v & V). exists v, hc. exact V.
    + destruct G3 as (v & V). exists v, lk. exact V.
Qed.

Lemma make_MARGO_complete st : ct_ini_ok st = true -> margo_complete (ct_ini st) -> exists m, make_MARGO ord st = Ok (Some m).
Proof.
  intros OK (A & S & (v1 & z1 & V1 & I1) & (v2 & b2 & V2 & I2) & (v3 & b3 & V3 & I3)).
  unfold make_MARGO. rewrite OK. cbn [negb].
  destruct (S 1 ltac:(lia)) as (key1 & w1 & W1 & _).
  rewrite (says_section _ _ _ _ W1), (says_section _ _ _ _ V1), (says_section _ _ _ _ V2). cbn [negb].
  destruct (literals_ok (ct_ini st) (ord (options (ct_ini st) "LITERALS")) 0 []) as (mask & lt & L & _ & Y).
  { intros key I. apply (proj1 (ord_in _ _)) in I. apply options_iff in I. destruct I as [v V]. destruct (A key v V) as (sat & N & Q).
    apply names_iff in N. exists sat. split; [exact N|]. intros R. destruct (Q R) as (k & K). exists k. apply getint_iff. eauto. }
  rewrite L. cbn [bind]. destruct (literals_inv _ _ _ _ _ _ L table_start) as (T & _ & _).
  assert (M : mask = 0xFFFFFF).
  { apply (mask_full _ _ T). intros sat R. destruct (S sat R) as (key & v & V & N). apply (Y key); [|now apply names_iff|exact R].
    apply ord_in. apply options_iff. eauto. }
  rewrite M, Z.eqb_refl. cbn [negb].
  rewrite (proj2 (getint_iff _ _ _ z1)) by eauto. cbn [bind].
  rewrite (proj2 (getboolean_iff _ _ _ b2)) by eauto. cbn [bind].
  rewrite (proj2 (getboolean_iff _ _ _ b3)) by eauto. cbn [bind]. eauto.
Qed.
End Ord.

Lemma make_JSON_sound st j : make_JSON st = Ok (Some j) -> ct_ini_ok st = true /\ json_from (ct_ini st) j.
Proof.
  unfold make_JSON. destruct (ct_ini_ok st); [|discriminate]. cbn [negb].
  destruct (has_section (ct_ini st) "JSON"); [|discriminate]. cbn [negb].
  destruct (getboolean (ct_ini st) "JSON" (ustr "enable_hdr_data")) as [[h|]|] eqn:G1; cbn [bind]; try discriminate.
  destruct (getboolean (ct_ini st) "JSON" (ustr "enable_aux_data")) as [[a|]|] eqn:G2; cbn [bind]; try discriminate.
  destruct (getboolean (ct_ini st) "JSON" (ustr "enable_pretty_view")) as [[p|]|] eqn:G3; cbn [bind]; try discriminate.
  intros H. assert (Hj : j = {| enable_hdr_data := h; enable_aux_data := a; enable_pretty_view := p |}) by congruence. subst j.
  apply getboolean_iff in G1. apply getboolean_iff in G2. apply getboolean_iff in G3. split; [reflexivity|]. repeat split; auto.
Qed.
Lemma make_JSON_complete st j : ct_ini_ok st = true -> json_from (ct_ini st) j -> make_JSON st = Ok (Some j).
Proof.
  intros OK (G1 & G2 & G3). unfold make_JSON. rewrite OK. cbn [negb].
  destruct G1 as (v1 & V1 & B1). rewrite (says_section _ _ _ _ V1). cbn [negb].
  rewrite (proj2 (getboolean_iff _ _ _ _)) by (exists v1; eauto). cbn [bind].
  rewrite (proj2 (getboolean_iff _ _ _ _)) by exact G2. cbn [bind].
  rewrite (proj2 (getboolean_iff _ _ _ _)) by exact G3. cbn [bind]. now destruct j.
Qed.
