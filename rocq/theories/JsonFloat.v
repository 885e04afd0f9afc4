(** * JsonFloat: decimal to binary conversion and [repr(float)]. *)
From Coq Require Import ZArith Reals Psatz Lia SpecFloat.
From Flocq Require Import Core BinarySingleNaN.
From Verif Require Import PyBase PyFloat PyFormat PyVal PyJson BitsProofs FloatProofs.
Local Open Scope Z_scope.

Definition radix10 : radix := Build_radix 10 (refl_equal _).
(** The real number m * 10^e. *)
Definition dec_R (m e : Z) : R := (IZR m * bpow radix10 e)%R.

Lemma pow10_R k : 0 <= k -> IZR (10 ^ k) = bpow radix10 k.
Proof. intros K. apply (IZR_Zpower radix10). exact K. Qed.
Lemma pow2_R k : 0 <= k -> IZR (2 ^ k) = bpow radix2 k.
Proof. intros K. apply (IZR_Zpower radix2). exact K. Qed.

Local Instance Hprec' : FLX.Prec_gt_0 fprec := eq_refl _.
Local Instance Hmax' : Prec_lt_emax fprec femax := eq_refl _.

(** ** [f_of_dec] is the correctly rounded value *)
Lemma f_of_dec_full m e : 0 < m ->
  (small (rnd (dec_R m e)) -> is_val (f_of_dec m e) (rnd (dec_R m e))) /\
  (~ small (rnd (dec_R m e)) -> f_of_dec m e = S754_infinity false).
Proof.
  intros M. unfold f_of_dec. destruct (Z.leb_spec 0 e) as [E|E].
  - assert (V : dec_R m e = (IZR (m * 10 ^ e) * bpow radix2 0)%R).
    { unfold dec_R. rewrite mult_IZR, pow10_R by exact E. cbn [bpow]. ring. }
    rewrite V. split; [apply normalize_val|]. intros NS.
    rewrite binary_normalize_equiv.
    pose proof (binary_normalize_correct fprec femax Hprec Hmax mode_NE (m * 10 ^ e) 0 false) as C. cbv zeta in C.
    unfold F2R in C. cbn [Fnum Fexp] in C. unfold rnd, small in NS.
    change (round radix2 (fexp fprec femax) (round_mode mode_NE)) with (round radix2 (SpecFloat.fexp fprec femax) ZnearestE) in C.
    rewrite Rlt_bool_false in C by lra. rewrite C.
    assert (0 < m * 10 ^ e) by (apply Z.mul_pos_pos; [lia|apply Z.pow_pos_nonneg; lia]).
    rewrite Rlt_bool_false; [reflexivity|]. apply Rmult_le_pos; [apply IZR_le; lia|apply bpow_ge_0].
  - destruct m as [|p|p]; try lia.
    assert (P10 : 0 < 10 ^ (- e)) by (apply Z.pow_pos_nonneg; lia).
    destruct (10 ^ (- e)) as [|q|q] eqn:Q; try lia.
    pose proof (Bdiv_correct_aux fprec femax Hprec Hmax mode_NE false p 0 false q 0) as C. cbv zeta in C.
    assert (V : dec_R (Z.pos p) e = (F2R (Float radix2 (cond_Zopp false (Z.pos p)) 0) / F2R (Float radix2 (cond_Zopp false (Z.pos q)) 0))%R).
    { unfold dec_R, F2R. cbn [cond_Zopp Fnum Fexp bpow]. rewrite !Rmult_1_r, <- Q, pow10_R by lia. rewrite bpow_opp.
      unfold Rdiv. rewrite Rinv_inv. reflexivity. }
    rewrite V. destruct (SFdiv_core_binary fprec femax (Z.pos p) 0 (Z.pos q) 0) as [[mz ez] lz].
    rewrite binary_round_aux_equiv.
    destruct C as (VB & C). cbn [xorb] in *. unfold rnd, small.
    change (round radix2 (fexp fprec femax) (round_mode mode_NE)) with (round radix2 (SpecFloat.fexp fprec femax) ZnearestE) in C.
    destruct (Rlt_bool_spec (Rabs (round radix2 (SpecFloat.fexp fprec femax) ZnearestE
       (F2R (Float radix2 (cond_Zopp false (Z.pos p)) 0) / F2R (Float radix2 (cond_Zopp false (Z.pos q)) 0)))) (bpow radix2 femax)) as [L|L].
    + split; [|lra]. intros _. destruct C as (C1 & C2 & _). split; [exact VB|]. split; [exact C2|exact C1].
    + split; [lra|]. intros _. rewrite C. reflexivity.
Qed.

Lemma f_of_dec_finite m e : 0 < m -> is_finite_SF (f_of_dec m e) = true -> is_val (f_of_dec m e) (rnd (dec_R m e)).
Proof.
  intros M F. destruct (f_of_dec_full m e M) as (A & B).
  destruct (Rlt_dec (Rabs (rnd (dec_R m e))) (bpow radix2 femax)) as [S|S]; [exact (A S)|].
  rewrite (B S) in F. discriminate F.
Qed.

(** Finite non-zero numbers are determined by their values. *)
Lemma val_inj x y r : is_val x r -> is_val y r -> r <> 0%R -> x = y.
Proof.
  intros Hx Hy N. apply is_val_B in Hx, Hy. destruct Hx as (a & -> & Fa & Ea), Hy as (b & -> & Fb & Eb).
  f_equal. apply B2R_inj.
  - destruct a; try discriminate Fa; cbn in *; [lra|reflexivity].
  - destruct b; try discriminate Fb; cbn in *; [lra|reflexivity].
  - congruence.
Qed.

Lemma f_same_eq a b : f_same a b = true -> a = b.
Proof.
  destruct a as [s|s| |s m e], b as [s'|s'| |s' m' e']; cbn; try discriminate.
  intros H. apply andb_prop in H. destruct H as (H & H3). apply andb_prop in H. destruct H as (H1 & H2).
  apply Bool.eqb_prop in H1. apply Pos.eqb_eq in H2. apply Z.eqb_eq in H3. congruence.
Qed.
Lemma f_same_refl s m e : f_same (S754_finite s m e) (S754_finite s m e) = true.
Proof. cbn. rewrite Bool.eqb_reflx, Pos.eqb_refl, Z.eqb_refl. reflexivity. Qed.

(** Equal reals read as equal doubles. *)
Lemma f_of_dec_ext m e m' e' s mx ex : 0 < m -> 0 < m' -> dec_R m e = dec_R m' e' ->
  f_of_dec m e = S754_finite s mx ex -> f_of_dec m' e' = S754_finite s mx ex.
Proof.
  intros M M' E H. assert (F : is_finite_SF (f_of_dec m e) = true) by now rewrite H.
  pose proof (f_of_dec_finite m e M F) as V. destruct (f_of_dec_full m' e' M') as (A & _). rewrite <- E in A.
  assert (S : small (rnd (dec_R m e))).
  { destruct (Rlt_dec (Rabs (rnd (dec_R m e))) (bpow radix2 femax)) as [S|S]; [exact S|].
    destruct (f_of_dec_full m e M) as (_ & C). rewrite (C S) in F. discriminate F. }
  rewrite <- H. apply val_inj with (rnd (dec_R m e)); [exact (A S)|exact V|].
  destruct V as (_ & _ & V). rewrite <- V, H. cbn [SF2R]. apply F2R_neq_0. cbn. now destruct s.
Qed.

(** ** Decimals close to a double read as that double *)
Local Notation FLT := (FLT_exp (-1074) 53).
Lemma val_format x r : is_val x r -> generic_format radix2 FLT r.
Proof.
  intros H. apply is_val_B in H. destruct H as (b & _ & _ & <-).
  apply (generic_format_B2R fprec femax b).
Qed.

Lemma ulp_large y : (0 < y)%R -> (y * bpow radix2 (-53) < ulp radix2 FLT y)%R.
Proof.
  intros Y. rewrite ulp_neq_0 by lra. unfold cexp, FLT_exp.
  apply Rlt_le_trans with (bpow radix2 (mag radix2 y - 53)).
  - unfold Z.sub. rewrite bpow_plus. apply Rmult_lt_compat_r; [apply bpow_gt_0|].
    pose proof (bpow_mag_gt radix2 y) as G. rewrite Rabs_pos_eq in G by lra. exact G.
  - apply bpow_le. lia.
Qed.

Lemma rnd_close x v : generic_format radix2 FLT x -> (0 < x)%R ->
  (Rabs (v - x) <= x / 2 / 10000000000000000)%R -> rnd v = x.
Proof.
  intros F X C. apply Rabs_le_inv in C. unfold rnd. change (SpecFloat.fexp fprec femax) with FLT.
  assert (U : bpow radix2 (-53) = (/ 9007199254740992)%R) by reflexivity.
  apply Rle_antisym.
  - apply round_N_le_midp; [exact _|exact F|]. rewrite succ_eq_pos by lra.
    pose proof (ulp_large x X) as G. rewrite U in G. lra.
  - apply round_N_ge_midp; [exact _|exact F|].
    pose proof (pred_plus_ulp radix2 FLT x X F) as P. pose proof (pred_ge_0 radix2 FLT x X F) as P0.
    set (y := pred radix2 FLT x) in *. destruct (Req_dec y 0) as [Z|NZ]; [lra|].
    pose proof (ulp_large y ltac:(lra)) as G. rewrite U in G. lra.
Qed.

(** ** The decimal point *)
Definition bin_R (m e : Z) : R := (IZR m * bpow radix2 e)%R.

Lemma below_pow10_ok m e j : 0 < m -> below_pow10 m e j = true <-> (bin_R m e < bpow radix10 j)%R.
Proof.
  intros M. unfold below_pow10. cbv zeta. rewrite Z.ltb_lt.
  assert (B2 : (bpow radix2 e * bpow radix2 (Z.max 0 (- e)) = bpow radix2 (Z.max 0 e))%R)
    by (rewrite <- bpow_plus; f_equal; lia).
  assert (B10 : (bpow radix10 j * bpow radix10 (Z.max 0 (- j)) = bpow radix10 (Z.max 0 j))%R)
    by (rewrite <- bpow_plus; f_equal; lia).
  pose proof (bpow_gt_0 radix2 (Z.max 0 (- e))) as P2. pose proof (bpow_gt_0 radix10 (Z.max 0 (- j))) as P10.
  assert (E : (IZR (m * 2 ^ Z.max 0 e * 10 ^ Z.max 0 (- j)) < IZR (10 ^ Z.max 0 j * 2 ^ Z.max 0 (- e)))%R <-> (bin_R m e < bpow radix10 j)%R).
  { rewrite !mult_IZR, !pow10_R, !pow2_R by lia. rewrite <- B2, <- B10. unfold bin_R.
    set (a := bpow radix2 (Z.max 0 (- e))) in *. set (b := bpow radix10 (Z.max 0 (- j))) in *.
    replace (IZR m * (bpow radix2 e * a) * b)%R with ((IZR m * bpow radix2 e) * (a * b))%R by ring.
    replace (bpow radix10 j * b * a)%R with (bpow radix10 j * (a * b))%R by ring.
    assert (0 < a * b)%R by now apply Rmult_lt_0_compat.
    split; intros H'; [now apply Rmult_lt_reg_r with (a * b)%R|now apply Rmult_lt_compat_r]. }
  rewrite <- E. split; [apply IZR_lt|apply lt_IZR].
Qed.

(** 10^a <= 2^p and 2^q <= 10^b, decided on integers *)
Definition estimate_ok (p : Z) : bool :=
  let j0 := decpt_estimate p in
  (10 ^ Z.max 0 (j0 - 1) * 2 ^ Z.max 0 (- p) <=? 2 ^ Z.max 0 p * 10 ^ Z.max 0 (- (j0 - 1))) &&
  (2 ^ Z.max 0 (p + 1) * 10 ^ Z.max 0 (- (j0 + 4)) <=? 10 ^ Z.max 0 (j0 + 4) * 2 ^ Z.max 0 (- (p + 1))).
Lemma estimates : forall p, -1074 <= p <= 1023 -> estimate_ok p = true.
Proof.
  assert (F : forallb estimate_ok (zrange (-1074) 1024) = true) by (vm_compute; reflexivity).
  intros p P. rewrite forallb_forall in F. apply F. apply zrange_In. lia.
Qed.
Lemma cross_le a b : (10 ^ Z.max 0 a * 2 ^ Z.max 0 (- b) <= 2 ^ Z.max 0 b * 10 ^ Z.max 0 (- a))%Z <-> (bpow radix10 a <= bpow radix2 b)%R.
Proof.
  assert (B2 : (bpow radix2 b * bpow radix2 (Z.max 0 (- b)) = bpow radix2 (Z.max 0 b))%R)
    by (rewrite <- bpow_plus; f_equal; lia).
  assert (B10 : (bpow radix10 a * bpow radix10 (Z.max 0 (- a)) = bpow radix10 (Z.max 0 a))%R)
    by (rewrite <- bpow_plus; f_equal; lia).
  pose proof (bpow_gt_0 radix2 (Z.max 0 (- b))) as P2. pose proof (bpow_gt_0 radix10 (Z.max 0 (- a))) as P10.
  transitivity (IZR (10 ^ Z.max 0 a * 2 ^ Z.max 0 (- b)) <= IZR (2 ^ Z.max 0 b * 10 ^ Z.max 0 (- a)))%R;
    [split; [apply IZR_le|apply le_IZR]|].
  rewrite !mult_IZR, !pow10_R, !pow2_R by lia. rewrite <- B2, <- B10.
  set (x := bpow radix2 (Z.max 0 (- b))) in *. set (y := bpow radix10 (Z.max 0 (- a))) in *.
  replace (bpow radix10 a * y * x)%R with (bpow radix10 a * (x * y))%R by ring.
  replace (bpow radix2 b * x * y)%R with (bpow radix2 b * (x * y))%R by ring.
  assert (0 < x * y)%R by now apply Rmult_lt_0_compat.
  split; intros H'; [now apply Rmult_le_reg_r with (x * y)%R|now apply Rmult_le_compat_r; [lra|]].
Qed.
Lemma cross_ge a b : (2 ^ Z.max 0 b * 10 ^ Z.max 0 (- a) <= 10 ^ Z.max 0 a * 2 ^ Z.max 0 (- b))%Z <-> (bpow radix2 b <= bpow radix10 a)%R.
Proof.
  assert (B2 : (bpow radix2 b * bpow radix2 (Z.max 0 (- b)) = bpow radix2 (Z.max 0 b))%R)
    by (rewrite <- bpow_plus; f_equal; lia).
  assert (B10 : (bpow radix10 a * bpow radix10 (Z.max 0 (- a)) = bpow radix10 (Z.max 0 a))%R)
    by (rewrite <- bpow_plus; f_equal; lia).
  pose proof (bpow_gt_0 radix2 (Z.max 0 (- b))) as P2. pose proof (bpow_gt_0 radix10 (Z.max 0 (- a))) as P10.
  transitivity (IZR (2 ^ Z.max 0 b * 10 ^ Z.max 0 (- a)) <= IZR (10 ^ Z.max 0 a * 2 ^ Z.max 0 (- b)))%R;
    [split; [apply IZR_le|apply le_IZR]|].
  rewrite !mult_IZR, !pow10_R, !pow2_R by lia. rewrite <- B2, <- B10.
  set (x := bpow radix2 (Z.max 0 (- b))) in *. set (y := bpow radix10 (Z.max 0 (- a))) in *.
  replace (bpow radix10 a * y * x)%R with (bpow radix10 a * (x * y))%R by ring.
  replace (bpow radix2 b * x * y)%R with (bpow radix2 b * (x * y))%R by ring.
  assert (0 < x * y)%R by now apply Rmult_lt_0_compat.
  split; intros H'; [now apply Rmult_le_reg_r with (x * y)%R|now apply Rmult_le_compat_r; [lra|]].
Qed.

Lemma log2_R m e : 0 < m -> (bpow radix2 (Z.log2 m + e) <= bin_R m e < bpow radix2 (Z.log2 m + e + 1))%R.
Proof.
  intros M. pose proof (Z.log2_spec m M) as (L & U). pose proof (Z.log2_nonneg m) as N.
  pose proof (bpow_gt_0 radix2 e). unfold bin_R. split.
  - rewrite bpow_plus. apply Rmult_le_compat_r; [lra|]. rewrite <- pow2_R by exact N. now apply IZR_le.
  - replace (Z.log2 m + e + 1) with (Z.succ (Z.log2 m) + e) by lia. rewrite bpow_plus.
    apply Rmult_lt_compat_r; [lra|]. rewrite <- pow2_R by lia. now apply IZR_lt.
Qed.

Lemma decpt_ok m e : 0 < m -> -1074 <= Z.log2 m + e <= 1023 ->
  (bpow radix10 (decpt m e - 1) <= bin_R m e < bpow radix10 (decpt m e))%R.
Proof.
  intros M P. pose proof (log2_R m e M) as (L & U). pose proof (estimates _ P) as E. unfold estimate_ok in E.
  apply andb_prop in E. destruct E as (E1 & E2). apply Z.leb_le in E1, E2. apply cross_le in E1. apply cross_ge in E2.
  unfold decpt. set (p := Z.log2 m + e) in *. set (j0 := decpt_estimate p) in *.
  assert (G : forall j, below_pow10 m e j = false -> (bpow radix10 j <= bin_R m e)%R).
  { intros j B. apply Rnot_lt_le. intros C. apply (below_pow10_ok m e j M) in C. congruence. }
  assert (T : forall j, below_pow10 m e j = true -> (bin_R m e < bpow radix10 j)%R) by (intros j; now apply below_pow10_ok).
  cbn [find].
  destruct (below_pow10 m e j0) eqn:B0; [split; [lra|now apply T]|].
  destruct (below_pow10 m e (j0 + 1)) eqn:B1; [split; [replace (j0 + 1 - 1) with j0 by lia; now apply G|now apply T]|].
  destruct (below_pow10 m e (j0 + 2)) eqn:B2; [split; [replace (j0 + 2 - 1) with (j0 + 1) by lia; now apply G|now apply T]|].
  destruct (below_pow10 m e (j0 + 3)) eqn:B3; [split; [replace (j0 + 3 - 1) with (j0 + 2) by lia; now apply G|now apply T]|].
  destruct (below_pow10 m e (j0 + 4)) eqn:B4; [split; [replace (j0 + 4 - 1) with (j0 + 3) by lia; now apply G|now apply T]|].
  apply G in B4. lra.
Qed.

(** ** Seventeen digits are enough *)
Lemma valid_range s m e : valid_binary fprec femax (S754_finite s m e) = true ->
  -1074 <= Z.log2 (Zpos m) + e <= 1023 /\ is_val (S754_finite false m e) (bin_R (Zpos m) e).
Proof.
  intros V. split.
  - cbn in V. unfold bounded in V. apply andb_prop in V. destruct V as (C & L).
    unfold canonical_mantissa in C. apply Zeq_bool_eq in C. apply Z.leb_le in L.
    unfold SpecFloat.fexp, SpecFloat.emin, fprec, femax in *.
    assert (D : Z.pos (digits2_pos m) = Z.log2 (Z.pos m) + 1).
    { assert (Q : digits2_pos m = Pos.size m) by (clear; induction m as [p IH|p IH|]; cbn; [now rewrite IH|now rewrite IH|reflexivity]).
      rewrite Q. destruct m as [p|p|]; cbn [Pos.size Z.log2]; lia. }
    pose proof (Z.log2_nonneg (Z.pos m)). lia.
  - split; [exact V|split; [reflexivity|]]. cbn [SF2R]. reflexivity.
Qed.

Lemma scaled_floor_R m e f : 0 < m -> exists a b,
  scaled_floor m e f = (a / b, 2 * (a mod b) ?= b) /\ 0 < a /\ 0 < b /\
  (IZR a = bin_R m e * bpow radix10 f * IZR b)%R.
Proof.
  intros M. unfold scaled_floor.
  exists (m * 2 ^ Z.max 0 e * 10 ^ Z.max 0 f), (2 ^ Z.max 0 (- e) * 10 ^ Z.max 0 (- f)).
  split; [reflexivity|].
  assert (0 < 2 ^ Z.max 0 e) by (apply Z.pow_pos_nonneg; lia).
  assert (0 < 10 ^ Z.max 0 f) by (apply Z.pow_pos_nonneg; lia).
  assert (0 < 2 ^ Z.max 0 (- e)) by (apply Z.pow_pos_nonneg; lia).
  assert (0 < 10 ^ Z.max 0 (- f)) by (apply Z.pow_pos_nonneg; lia).
  split; [now repeat apply Z.mul_pos_pos|]. split; [now apply Z.mul_pos_pos|].
  rewrite !mult_IZR, !pow2_R, !pow10_R by lia. unfold bin_R.
  replace (bpow radix2 (Z.max 0 e)) with (bpow radix2 e * bpow radix2 (Z.max 0 (- e)))%R
    by (rewrite <- bpow_plus; f_equal; lia).
  replace (bpow radix10 (Z.max 0 f)) with (bpow radix10 f * bpow radix10 (Z.max 0 (- f)))%R
    by (rewrite <- bpow_plus; f_equal; lia). ring.
Qed.

Lemma f_of_dec_nonpos d x s m e : 0 <= d -> f_of_dec d x = S754_finite s m e -> 0 < d.
Proof.
  intros D H. destruct (Z.eq_dec d 0) as [->|]; [|lia]. unfold f_of_dec in H.
  destruct (0 <=? x); [rewrite Z.mul_0_l in H|]; discriminate H.
Qed.

Lemma digits_n_some m e k n d : digits_n (Zpos m) e k n = Some d ->
  0 < d /\ f_of_dec d (k - n) = S754_finite false m e.
Proof.
  unfold digits_n. destruct (scaled_floor_R (Zpos m) e (n - k) eq_refl) as (a & b & -> & A & B & _).
  cbn [Z.to_pos]. pose proof (Z.div_pos a b ltac:(lia) B) as P. set (q := a / b) in *. clearbody q.
  set (c := 2 * (a mod b) ?= b). clearbody c.
  destruct (f_same (f_of_dec q (k - n)) (S754_finite false m e)) eqn:L;
  destruct (f_same (f_of_dec (q + 1) (k - n)) (S754_finite false m e)) eqn:H; cbn [andb]; intros E;
    try discriminate E; injection E as <-;
    repeat match goal with X : f_same _ _ = true |- _ => apply f_same_eq in X end;
    try (split; [lia|assumption]); pose proof (f_of_dec_nonpos _ _ _ _ _ P L) as Q; try (split; [lia|assumption]).
  destruct c; [destruct (Z.even q)| |]; (split; [lia|assumption]).
Qed.

Lemma digits_17 s m e : valid_binary fprec femax (S754_finite s m e) = true ->
  digits_n (Zpos m) e (decpt (Zpos m) e) 17 <> None.
Proof.
  intros V. destruct (valid_range s m e V) as (RG & IV). set (k := decpt (Zpos m) e).
  pose proof (decpt_ok (Zpos m) e eq_refl RG) as (KL & KU). fold k in KL, KU.
  unfold digits_n. destruct (scaled_floor_R (Zpos m) e (17 - k) eq_refl) as (a & b & -> & A & B & E).
  cbn [Z.to_pos]. set (x := bin_R (Zpos m) e) in *.
  assert (X : (0 < x)%R) by (pose proof (bpow_gt_0 radix10 (k - 1)); lra).
  pose proof (Z.div_mod a b ltac:(lia)) as DM. pose proof (Z.mod_pos_bound a b B) as MB.
  set (d := a / b) in *. assert (BR : (0 < IZR b)%R) by now apply IZR_lt.
  assert (U : bpow radix10 (k - 17) = (bpow radix10 (k - 1) / 10000000000000000)%R).
  { replace (k - 17) with ((k - 1) + -16) by lia. rewrite bpow_plus. reflexivity. }
  assert (XB : (x = IZR a / IZR b * bpow radix10 (k - 17))%R).
  { rewrite E. replace (bpow radix10 (k - 17)) with (/ bpow radix10 (17 - k))%R
      by (rewrite <- bpow_opp; f_equal; lia). field. split; [|lra]. apply Rgt_not_eq, bpow_gt_0. }
  pose proof (bpow_gt_0 radix10 (k - 17)) as UP. set (u := bpow radix10 (k - 17)) in *.
  assert (XU : (u <= x / 10000000000000000)%R) by lra.
  (* the nearer neighbour reads back *)
  assert (N : forall d', 0 < d' -> 2 * Z.abs (a - b * d') <= b -> f_of_dec d' (k - 17) = S754_finite false m e).
  { intros d' P H.
    assert (C : rnd (dec_R d' (k - 17)) = x).
    { apply rnd_close; [apply (val_format _ _ IV)|exact X|]. unfold dec_R. fold u.
      assert (Q : (IZR d' * u - x = - (IZR (a - b * d') / IZR b * u))%R).
      { rewrite XB at 1. rewrite minus_IZR, mult_IZR. field. lra. }
      rewrite Q, Rabs_Ropp, Rabs_mult, (Rabs_pos_eq u) by lra.
      unfold Rdiv at 1. rewrite Rabs_mult, (Rabs_pos_eq (/ IZR b)) by (left; now apply Rinv_0_lt_compat).
      rewrite <- abs_IZR. apply IZR_le in H. rewrite mult_IZR in H.
      assert (IZR (Z.abs (a - b * d')) * / IZR b <= / 2)%R.
      { apply Rmult_le_reg_r with (IZR b); [lra|]. rewrite Rmult_assoc, Rinv_l by lra. lra. }
      apply Rle_trans with (/ 2 * u)%R; [now apply Rmult_le_compat_r; [lra|]|lra]. }
    destruct (f_of_dec_full d' (k - 17) P) as (F & _). rewrite C in F.
    apply val_inj with x; [apply F|exact IV|lra].
    apply is_val_B in IV. destruct IV as (bx & _ & _ & <-). unfold small. apply abs_B2R_lt_emax. }
  assert (DP : 0 < d).
  { apply lt_IZR. assert (XD : (1 * u <= IZR a / IZR b * u)%R) by lra.
    apply Rmult_le_reg_r in XD; [|exact UP].
    assert (1 <= a / b); [|apply IZR_lt; fold d in H; lia].
    apply Z.div_le_lower_bound; [exact B|]. apply le_IZR. rewrite mult_IZR.
    apply Rmult_le_reg_r with (/ IZR b)%R; [now apply Rinv_0_lt_compat|]. fold (Rdiv (IZR a) (IZR b)).
    replace (IZR b * 1 * / IZR b)%R with 1%R by (field; lra). exact XD. }
  destruct (Z_le_gt_dec (2 * (a mod b)) b) as [LO|HI].
  - rewrite (N d DP); [|nia]. rewrite f_same_refl. cbn [andb].
    destruct (f_same _ _); discriminate.
  - rewrite (N (d + 1)); [|lia|nia]. rewrite f_same_refl.
    destruct (f_same _ _); cbn [andb]; discriminate.
Qed.

Lemma shortest_from_ok m e k : digits_n (Zpos m) e k 17 <> None ->
  forall fuel n, n + Z.of_nat fuel = 18 -> (0 < fuel)%nat ->
  let '(d, x) := shortest_from (Zpos m) e k n fuel in 0 < d /\ f_of_dec d x = S754_finite false m e.
Proof.
  intros D fuel. induction fuel as [|fuel IH]; intros n N F; [lia|].
  cbn [shortest_from]. destruct (digits_n (Z.pos m) e k n) as [d|] eqn:G; [now apply digits_n_some|].
  destruct fuel as [|fuel]; [replace n with 17 in G by lia; congruence|].
  apply IH; lia.
Qed.

Lemma shortest_ok s m e : valid_binary fprec femax (S754_finite s m e) = true ->
  let '(d, x) := shortest (Zpos m) e in 0 < d /\ f_of_dec d x = S754_finite false m e.
Proof. intros V. apply shortest_from_ok; [now apply digits_17 with s|reflexivity|lia]. Qed.
