(** * FormatProofs: decimal texts denote the numbers they are made from. *)
From Coq Require Import ZArith Reals Psatz Lia List.
From Flocq Require Import Core BinarySingleNaN.
From Verif Require Import PyBase PyFloat PyText FloatProofs PyFormat FormatSpec.
Local Open Scope Z_scope.

(** ** Digits *)

Lemma digit_value_app a b : digit_value (a ++ b) = digit_value a * 10 ^ zlen b + digit_value b.
Proof.
  unfold digit_value. rewrite fold_left_app. generalize (fold_left (fun a c => 10 * a + (c - 48)) a 0).
  induction b as [|c r IH] using rev_ind; intros z; cbn [fold_left].
  - change (zlen (@nil Z)) with 0. lia.
  - rewrite !fold_left_app. cbn [fold_left]. rewrite IH.
    replace (zlen (r ++ [c])) with (zlen r + 1) by (unfold zlen; rewrite app_length; cbn [length]; lia).
    rewrite Z.pow_add_r by (unfold zlen; lia). lia.
Qed.

Lemma digits_aux_spec fuel : forall n acc, 0 <= n -> n < 10 ^ Z.of_nat fuel ->
  exists d, digits_aux fuel n acc = d ++ acc /\ Forall digit d /\ digit_value d = n /\
    (fuel <> O -> d <> []) /\ (d <> [48] -> hd 0 d <> 48).
Proof.
  induction fuel as [|k IH]; intros n acc N B.
  - exists []. cbn in B. assert (n = 0) by lia. subst. repeat split; try constructor; [congruence|cbn; lia].
  - cbn [digits_aux]. cbv zeta. assert (D : digit (48 + n mod 10)).
    { unfold digit. pose proof (Z.mod_pos_bound n 10). lia. }
    destruct (Z.ltb_spec n 10) as [L|L].
    + exists [48 + n mod 10]. split; [reflexivity|]. split; [repeat constructor; apply D|].
      rewrite Z.mod_small by lia. split; [unfold digit_value; cbn [fold_left]; lia|]. split; [congruence|].
      cbn [hd]. intros H X. apply H. now rewrite X.
    + destruct (IH (n / 10) ((48 + n mod 10) :: acc)) as (d & E & F & V & NE & LZ).
      { apply Z.div_pos; lia. }
      { rewrite Nat2Z.inj_succ, Z.pow_succ_r in B by lia. apply Z.div_lt_upper_bound; lia. }
      exists (d ++ [48 + n mod 10]). split; [rewrite E, <- app_assoc; reflexivity|].
      split; [apply Forall_app; split; [exact F|repeat constructor; apply D]|].
      split. { rewrite digit_value_app, V. change (zlen [48 + n mod 10]) with 1. unfold digit_value. cbn [fold_left].
        pose proof (Z.div_mod n 10). lia. }
      assert (dn : d <> []). { intros ->. cbn in V. assert (1 <= n / 10) by (apply Z.div_le_lower_bound; lia).
        unfold digit_value in V. cbn in V. lia. }
      split; [intros _ X; apply app_eq_nil in X; tauto|]. intros _.
      destruct d as [|c d]; [congruence|]. cbn [hd app] in *. apply LZ. intros [= -> ->].
      unfold digit_value in V. cbn in V. assert (1 <= n / 10) by (apply Z.div_le_lower_bound; lia). lia.
Qed.

Lemma py_digits_spec n : 0 <= n ->
  Forall digit (py_digits n) /\ py_digits n <> [] /\ digit_value (py_digits n) = n /\
  (py_digits n <> [48] -> hd 0 (py_digits n) <> 48).
Proof.
  intros N. unfold py_digits.
  destruct (digits_aux_spec (S (Z.to_nat (Z.log2 n))) n [] N) as (d & E & F & V & NE & LZ).
  { rewrite Nat2Z.inj_succ, Z2Nat.id by apply Z.log2_nonneg.
    destruct (Z.eq_dec n 0) as [->|]; [reflexivity|]. pose proof (Z.log2_spec n ltac:(lia)) as [_ H].
    eapply Z.lt_le_trans; [exact H|]. apply Z.pow_le_mono_l. lia. }
  rewrite E, app_nil_r. auto.
Qed.

Lemma digit_value_bound l : Forall digit l -> 0 <= digit_value l < 10 ^ zlen l.
Proof.
  induction l as [|c r IH] using rev_ind; intros F; [cbn; lia|].
  apply Forall_app in F. destruct F as [F1 F2]. inversion F2; subst. specialize (IH F1).
  rewrite digit_value_app.
  replace (zlen (r ++ [c])) with (zlen r + 1) by (unfold zlen; rewrite app_length; cbn [length]; lia).
  change (zlen [c]) with 1. rewrite Z.pow_add_r by (unfold zlen; lia).
  unfold digit_value at 2 4. cbn [fold_left]. unfold digit in *. lia.
Qed.

Lemma digit_value_zeros n l : digit_value (repeat 48 n ++ l) = digit_value l.
Proof. unfold digit_value. rewrite fold_left_app. f_equal. induction n; [reflexivity|exact IHn]. Qed.

Lemma py_digits_length n k : 0 <= n < 10 ^ k -> 0 < k -> zlen (py_digits n) <= k.
Proof.
  intros N K. destruct (py_digits_spec n ltac:(lia)) as (F & NE & V & LZ).
  destruct (py_digits n) as [|c d]; [congruence|]. destruct d as [|c' d]; [unfold zlen; cbn; lia|].
  assert (c <> 48) by (apply LZ; congruence).
  inversion F; subst. destruct (Z.le_gt_cases (zlen (c :: c' :: d)) k) as [|G]; [assumption|exfalso].
  change (c :: c' :: d) with ([c] ++ (c' :: d)) in N. rewrite digit_value_app in N.
  change (digit_value [c]) with (10 * 0 + (c - 48)) in N. unfold digit in *.
  assert (10 ^ k <= 10 ^ zlen (c' :: d)).
  { apply Z.pow_le_mono_r; [lia|]. clear - G. unfold zlen in *. cbn [length] in *. lia. }
  pose proof (digit_value_bound (c' :: d) ltac:(assumption)). nia.
Qed.

Lemma zlen_pad c w s : zlen (pad_left c w s) = Z.max w (zlen s).
Proof. unfold pad_left, zlen. rewrite app_length, repeat_length. lia. Qed.

Lemma Forall_repeat {A} (P : A -> Prop) a n : P a -> Forall P (repeat a n).
Proof. intros H. induction n; cbn; constructor; auto. Qed.

Lemma fixed_text_spec frc n : 0 <= frc -> 0 <= n ->
  exists ip fp, fixed_text frc n = ip ++ (if frc =? 0 then [] else 46 :: fp) /\
    Forall digit ip /\ ip <> [] /\ Forall digit fp /\ zlen fp = frc /\ digit_value (ip ++ fp) = n.
Proof.
  intros K N. pose proof (Z.pow_pos_nonneg 10 frc ltac:(lia) K) as P10.
  assert (Q : 0 <= n / 10 ^ frc) by (apply Z.div_pos; lia).
  destruct (py_digits_spec _ Q) as (F & NE & V & _).
  unfold fixed_text. destruct (Z.eqb_spec frc 0) as [->|NZ].
  - exists (py_digits (n / 10 ^ 0)), []. rewrite app_nil_r. split; [reflexivity|].
    split; [exact F|]. split; [exact NE|]. split; [constructor|]. split; [reflexivity|].
    rewrite V. cbn. apply Z.div_1_r.
  - pose proof (Z.mod_pos_bound n _ P10) as M. destruct (py_digits_spec _ (proj1 M)) as (F' & NE' & V' & _).
    exists (py_digits (n / 10 ^ frc)), (pad_left 48 frc (py_digits (n mod 10 ^ frc))).
    assert (L : zlen (pad_left 48 frc (py_digits (n mod 10 ^ frc))) = frc).
    { rewrite zlen_pad. pose proof (py_digits_length _ frc M ltac:(lia)). lia. }
    split; [reflexivity|]. split; [exact F|]. split; [exact NE|].
    split; [unfold pad_left; apply Forall_app; split; [apply Forall_repeat; unfold digit; lia|exact F']|].
    split; [exact L|]. rewrite digit_value_app, L, V. unfold pad_left. rewrite digit_value_zeros, V'.
    pose proof (Z.div_mod n (10 ^ frc)). lia.
Qed.

Lemma padded_pad w t : padded w t (pad_left 32 w t).
Proof. exists (Z.to_nat (w - zlen t)). split; [reflexivity|apply zlen_pad]. Qed.

(** ** Rounding *)

Lemma div_rne_spec a b : 0 < b -> 2 * Z.abs (a - b * div_rne a b) <= b.
Proof.
  intros B. unfold div_rne. pose proof (Z.div_mod a b ltac:(lia)) as E. pose proof (Z.mod_pos_bound a b B) as M.
  destruct (Z.compare_spec (2 * (a mod b)) b) as [C|C|C]; try destruct (Z.even _);
    set (q := a / b) in *; set (r := a mod b) in *; nia.
Qed.
Lemma div_rne_nonneg a b : 0 <= a -> 0 < b -> 0 <= div_rne a b.
Proof.
  intros A B. unfold div_rne. pose proof (Z.div_pos a b A B).
  destruct (_ ?= _); try destruct (Z.even _); lia.
Qed.

Lemma scaled_digits_nonneg m e frc : 0 <= m -> 0 <= frc -> 0 <= scaled_digits m e frc.
Proof.
  intros M K. pose proof (Z.pow_pos_nonneg 10 frc ltac:(lia) K). unfold scaled_digits. destruct (Z.leb_spec 0 e).
  - pose proof (Z.pow_pos_nonneg 2 e ltac:(lia) ltac:(lia)). apply Z.mul_nonneg_nonneg; [apply Z.mul_nonneg_nonneg|]; lia.
  - apply div_rne_nonneg; [apply Z.mul_nonneg_nonneg; lia|]. apply Z.pow_pos_nonneg; lia.
Qed.

Open Scope R_scope.

Lemma scaled_digits_spec m e frc : (0 <= m)%Z -> (0 <= frc)%Z ->
  Rabs (IZR m * bpow radix2 e - IZR (scaled_digits m e frc) / IZR (10 ^ frc)) <= / 2 / IZR (10 ^ frc).
Proof.
  intros M K. pose proof (Z.pow_pos_nonneg 10 frc ltac:(lia) K) as P. apply IZR_lt in P.
  set (T := IZR (10 ^ frc)) in *. unfold scaled_digits. destruct (Z.leb_spec 0 e) as [E|E].
  - rewrite !mult_IZR. fold T.
    replace (bpow radix2 e) with (IZR (2 ^ e)).
    2:{ apply (IZR_Zpower radix2). lia. }
    replace (IZR m * IZR (2 ^ e) - IZR m * IZR (2 ^ e) * T / T) with 0 by (field; lra).
    rewrite Rabs_R0. apply Rlt_le, Rdiv_lt_0_compat; lra.
  - assert (B : (0 < 2 ^ (- e))%Z) by (apply Z.pow_pos_nonneg; lia).
    pose proof (div_rne_spec (m * 10 ^ frc) (2 ^ (- e)) B) as H.
    set (q := div_rne _ _) in *. apply IZR_le in H. rewrite mult_IZR, abs_IZR, minus_IZR, !mult_IZR in H. fold T in H.
    apply IZR_lt in B. set (D := IZR (2 ^ (- e))) in *.
    replace (bpow radix2 e) with (/ D).
    2:{ assert (HD : D = bpow radix2 (- e)) by (apply (IZR_Zpower radix2); lia).
        rewrite HD, bpow_opp, Rinv_inv. reflexivity. }
    assert (X : IZR m * / D - IZR q / T = (IZR m * T - D * IZR q) / (D * T)) by (field; lra).
    rewrite X. unfold Rdiv at 1. rewrite Rabs_mult, Rabs_inv, (Rabs_pos_eq (D * T)) by nra.
    apply (Rmult_le_reg_r (D * T)); [nra|]. rewrite Rmult_assoc, Rinv_l, Rmult_1_r by nra.
    replace (/ 2 / T * (D * T)) with (D / 2) by (field; lra). lra.
Qed.

Lemma fmt_float_finite width frc x : (0 <= frc)%Z -> is_finite_SF x = true ->
  exists t n, padded width t (fmt_float width frc x) /\ decimal_text frc t n /\
    Rabs (SF2R radix2 x - IZR n / IZR (10 ^ frc)) <= / 2 / IZR (10 ^ frc).
Proof.
  intros K F. assert (HT : 0 < IZR (10 ^ frc)) by (apply IZR_lt, Z.pow_pos_nonneg; lia).
  assert (G : forall (s : bool) n, (0 <= n)%Z -> exists t,
      padded width t (pad_left 32 width (if s then 45%Z :: fixed_text frc n else fixed_text frc n)) /\
      decimal_text frc t (if s then - n else n)).
  { intros s n N. eexists. split; [apply padded_pad|].
    destruct (fixed_text_spec frc n K N) as (ip & fp & E & F1 & F2 & F3 & F4 & F5).
    exists s, ip, fp. rewrite E. split; [destruct s; reflexivity|]. repeat (split; [assumption|]). rewrite F5. reflexivity. }
  destruct x as [s|s| |s m e]; try discriminate.
  - destruct (G s 0%Z ltac:(lia)) as (t & P & D). exists t, (if s then - 0 else 0)%Z. split; [exact P|]. split; [exact D|].
    cbn [SF2R]. replace (IZR (if s then - 0 else 0)) with 0 by (destruct s; reflexivity).
    replace (0 - 0 / IZR (10 ^ frc)) with 0 by (field; lra). rewrite Rabs_R0. apply Rlt_le, Rdiv_lt_0_compat; lra.
  - destruct (G s (scaled_digits (Zpos m) e frc) ltac:(apply scaled_digits_nonneg; lia)) as (t & P & D).
    exists t, (if s then - scaled_digits (Zpos m) e frc else scaled_digits (Zpos m) e frc)%Z.
    split; [exact P|]. split; [exact D|].
    pose proof (scaled_digits_spec (Zpos m) e frc ltac:(lia) K) as H.
    cbn [SF2R]. unfold F2R. cbn [Fnum Fexp]. destruct s; cbn [cond_Zopp]; [|exact H].
    change (Z.neg m) with (- Z.pos m)%Z. rewrite !opp_IZR.
    replace (- IZR (Z.pos m) * bpow radix2 e - - IZR (scaled_digits (Z.pos m) e frc) / IZR (10 ^ frc))
      with (- (IZR (Z.pos m) * bpow radix2 e - IZR (scaled_digits (Z.pos m) e frc) / IZR (10 ^ frc)))
      by (field; lra).
    rewrite Rabs_Ropp. exact H.
Qed.

Close Scope R_scope.

(** ** Ints *)
Lemma py_int_str_spec z : decimal_text 0 (py_int_str z) z.
Proof.
  unfold py_int_str, decimal_text. destruct (Z.ltb_spec z 0).
  - destruct (py_digits_spec (- z) ltac:(lia)) as (F & NE & V & _).
    exists true, (py_digits (- z)), []. rewrite !app_nil_r. cbn [Z.eqb]. rewrite V.
    repeat (split; [first [reflexivity|assumption|constructor]|]). lia.
  - destruct (py_digits_spec z ltac:(lia)) as (F & NE & V & _).
    exists false, (py_digits z), []. rewrite !app_nil_r. cbn [Z.eqb]. rewrite V.
    repeat (split; [first [reflexivity|assumption|constructor]|]). lia.
Qed.

Lemma fmt_int_spec width z : exists t, padded width t (fmt_int width z) /\ decimal_text 0 t z.
Proof. eexists. split; [apply padded_pad|apply py_int_str_spec]. Qed.

(** A numeral has one value. *)
Lemma decimal_text_fun frc t n n' : decimal_text frc t n -> decimal_text frc t n' -> n = n'.
Proof.
  intros (s & ip & fp & E & F1 & N & F2 & L & V) (s' & ip' & fp' & E' & F1' & N' & F2' & L' & V').
  assert (S : s = s').
  { destruct ip as [|c ip]; [congruence|]. destruct ip' as [|c' ip']; [congruence|].
    inversion F1; inversion F1'; subst. destruct s, s'; try reflexivity; cbn in E'; unfold digit in *; congruence || (injection E' as X _; lia). }
  subst s'. assert (E2 : ip ++ fp = ip' ++ fp').
  { rewrite E in E'. assert (X : ip ++ (if frc =? 0 then [] else 46 :: fp) = ip' ++ (if frc =? 0 then [] else 46 :: fp')).
    { destruct s; cbn in E'; congruence. }
    destruct (frc =? 0) eqn:Z0.
    - apply Z.eqb_eq in Z0. assert (fp = []) by (destruct fp; [reflexivity|unfold zlen in L; cbn in L; lia]).
      assert (fp' = []) by (destruct fp'; [reflexivity|unfold zlen in L'; cbn in L'; lia]). subst. exact X.
    - assert (LL : length (46 :: fp) = length (46 :: fp')) by (unfold zlen in *; cbn; lia).
      apply app_inj_tail_iff in X || idtac.
      assert (Y : ip = ip' /\ 46 :: fp = 46 :: fp').
      { clear - X LL. revert ip' X. induction ip as [|a r IH]; intros [|a' r'] X; cbn in X.
        - now split.
        - exfalso. apply (f_equal (@length Z)) in X. cbn in *. rewrite app_length in X. cbn in X. lia.
        - exfalso. apply (f_equal (@length Z)) in X. cbn in *. rewrite app_length in X. cbn in X. lia.
        - injection X as -> X. destruct (IH r' X) as [-> ->]. now split. }
      destruct Y as [-> Y]. congruence. }
  rewrite V, V', E2. reflexivity.
Qed.

Lemma decimal_plain frc t n : decimal_text frc t n -> Forall plain t.
Proof.
  intros (s & ip & fp & -> & F1 & _ & F2 & _).
  assert (D : forall c, digit c -> plain c) by (unfold digit, plain; intros; lia).
  repeat apply Forall_app_2 || (apply Forall_app; split).
  - destruct s; repeat constructor; unfold plain; lia.
  - eapply Forall_impl; [exact D|exact F1].
  - destruct (frc =? 0); constructor; [unfold plain; lia|]. eapply Forall_impl; [exact D|exact F2].
Qed.
Lemma padded_plain w t s : padded w t s -> Forall plain t -> Forall plain s.
Proof. intros (n & -> & _) F. apply Forall_app. split; [apply Forall_repeat; unfold plain; lia|exact F]. Qed.
