(** * FloatProofs: the real-number meaning of the binary64 operations of [PyFloat].

    [round_nearest_even_equiv] to [binary_normalize_equiv] follow Flocq's PrimFloat.v (LGPL),
    which states them for primitive floats. *)
From Coq Require Import ZArith Reals Psatz SpecFloat Lia.
From Flocq Require Import Core Relative BinarySingleNaN.
From Verif Require Import PyBase PyFloat.
Open Scope R_scope.

Local Instance Hprec : FLX.Prec_gt_0 fprec := eq_refl _.
Local Instance Hmax : Prec_lt_emax fprec femax := eq_refl _.

Lemma round_nearest_even_equiv s m l : round_nearest_even m l = choice_mode mode_NE s m l.
Proof.
  case l; [reflexivity|intro c]. case c; [ | reflexivity..].
  now simpl; unfold Round.cond_incr; case Z.even.
Qed.
Lemma binary_round_aux_equiv sx mx ex lx :
  SpecFloat.binary_round_aux fprec femax sx mx ex lx
  = BinarySingleNaN.binary_round_aux fprec femax mode_NE sx mx ex lx.
Proof.
  unfold SpecFloat.binary_round_aux, BinarySingleNaN.binary_round_aux.
  set (mrse' := shr_fexp _ _ _). case mrse'; intros mrs' e'; simpl.
  now rewrite (round_nearest_even_equiv sx).
Qed.
Lemma binary_round_equiv s m e :
  SpecFloat.binary_round fprec femax s m e = BinarySingleNaN.binary_round fprec femax mode_NE s m e.
Proof.
  unfold SpecFloat.binary_round, BinarySingleNaN.binary_round, shl_align_fexp.
  set (mez := shl_align _ _ _); case mez as [mz ez]. apply binary_round_aux_equiv.
Qed.
Lemma binary_normalize_equiv m e szero :
  SpecFloat.binary_normalize fprec femax m e szero
  = B2SF (BinarySingleNaN.binary_normalize fprec femax Hprec Hmax mode_NE m e szero).
Proof.
  case m as [ | p | p].
  - now simpl.
  - simpl; rewrite B2SF_SF2B; apply binary_round_equiv.
  - simpl; rewrite B2SF_SF2B; apply binary_round_equiv.
Qed.

(** Rounding to binary64, nearest even. *)
Definition rnd (r : R) : R := round radix2 (SpecFloat.fexp fprec femax) ZnearestE r.

(** [x] is a finite binary64 number with value [r]. *)
Definition is_val (x : flt) (r : R) : Prop :=
  valid_binary fprec femax x = true /\ is_finite_SF x = true /\ SF2R radix2 x = r.

Lemma is_val_B x r : is_val x r ->
  exists b : binary_float fprec femax, x = B2SF b /\ BinarySingleNaN.is_finite b = true /\ B2R b = r.
Proof.
  intros (V & F & E). exists (SF2B x V). rewrite B2SF_SF2B, is_finite_SF2B, B2R_SF2B. auto.
Qed.
Lemma B_is_val (b : binary_float fprec femax) r :
  BinarySingleNaN.is_finite b = true -> B2R b = r -> is_val (B2SF b) r.
Proof.
  intros F E. split; [apply valid_binary_B2SF|]. split; [now rewrite is_finite_SF_B2SF|].
  now rewrite SF2R_B2SF.
Qed.

Lemma is_val_fun x r r' : is_val x r -> is_val x r' -> r = r'.
Proof. intros (_ & _ & <-) (_ & _ & <-). reflexivity. Qed.

Definition small (r : R) : Prop := Rabs r < bpow radix2 femax.

Lemma mul_val x y a b : is_val x a -> is_val y b -> small (rnd (a * b)) ->
  is_val (f_mul x y) (rnd (a * b)).
Proof.
  intros Hx Hy S. apply is_val_B in Hx, Hy. destruct Hx as (p & -> & Fp & Ep), Hy as (q & -> & Fq & Eq).
  assert (E : f_mul (B2SF p) (B2SF q) = B2SF (Bmult mode_NE p q)).
  { unfold f_mul. case p as [sx|sx| |sx mx ex Bx]; case q as [sy|sy| |sy my ey By]; [now trivial..|].
    simpl. rewrite B2SF_SF2B. apply binary_round_aux_equiv. }
  rewrite E. pose proof (Bmult_correct fprec femax Hprec Hmax mode_NE p q) as C.
  rewrite Rlt_bool_true in C by (rewrite Ep, Eq; exact S). destruct C as (C1 & C2 & _).
  apply B_is_val; [rewrite C2, Fp, Fq; reflexivity|]. rewrite C1, Ep, Eq. reflexivity.
Qed.

Lemma add_val x y a b : is_val x a -> is_val y b -> small (rnd (a + b)) ->
  is_val (f_add x y) (rnd (a + b)).
Proof.
  intros Hx Hy S. apply is_val_B in Hx, Hy. destruct Hx as (p & -> & Fp & Ep), Hy as (q & -> & Fq & Eq).
  assert (E : f_add (B2SF p) (B2SF q) = B2SF (Bplus mode_NE p q)).
  { unfold f_add. case p as [sx|sx| |sx mx ex Bx]; case q as [sy|sy| |sy my ey By];
      [now (trivial || simpl; case Bool.eqb).. | ]. apply binary_normalize_equiv. }
  rewrite E. pose proof (Bplus_correct fprec femax Hprec Hmax mode_NE p q Fp Fq) as C.
  rewrite Rlt_bool_true in C by (rewrite Ep, Eq; exact S). destruct C as (C1 & C2 & _).
  apply B_is_val; [exact C2|]. rewrite C1, Ep, Eq. reflexivity.
Qed.

Lemma div_val x y a b : is_val x a -> is_val y b -> b <> 0 -> small (rnd (a / b)) ->
  is_val (f_div x y) (rnd (a / b)).
Proof.
  intros Hx Hy NZ S. apply is_val_B in Hx, Hy. destruct Hx as (p & -> & Fp & Ep), Hy as (q & -> & Fq & Eq).
  assert (E : f_div (B2SF p) (B2SF q) = B2SF (Bdiv mode_NE p q)).
  { unfold f_div. case p as [sx|sx| |sx mx ex Bx]; case q as [sy|sy| |sy my ey By];
      [now (trivial || simpl; case Bool.eqb).. | ]. simpl. rewrite B2SF_SF2B.
    set (melz := SFdiv_core_binary _ _ _ _ _ _). case melz as [[mz ez] lz]. apply binary_round_aux_equiv. }
  rewrite E. pose proof (Bdiv_correct fprec femax Hprec Hmax mode_NE p q) as C.
  rewrite Eq in C. specialize (C NZ).
  rewrite Rlt_bool_true in C by (rewrite Ep; exact S). destruct C as (C1 & C2 & _).
  apply B_is_val; [rewrite C2, Fp; reflexivity|]. rewrite C1, Ep. reflexivity.
Qed.

Lemma normalize_val m e : small (rnd (IZR m * bpow radix2 e)) ->
  is_val (SpecFloat.binary_normalize fprec femax m e false) (rnd (IZR m * bpow radix2 e)).
Proof.
  intros S. rewrite binary_normalize_equiv.
  pose proof (binary_normalize_correct fprec femax Hprec Hmax mode_NE m e false) as C. cbv zeta in C.
  unfold F2R in C. cbn [Fnum Fexp] in C.
  rewrite Rlt_bool_true in C by exact S. destruct C as (C1 & C2 & _).
  apply B_is_val; [exact C2|exact C1].
Qed.

(** Numbers m * 2^e with |m| < 2^53 and e >= -1074 are representable. *)
Lemma rnd_exact m e : (Z.abs m < 2 ^ 53)%Z -> (-1074 <= e)%Z ->
  rnd (IZR m * bpow radix2 e) = IZR m * bpow radix2 e.
Proof.
  intros Hm He. unfold rnd. apply round_generic; [auto with typeclass_instances|].
  change (SpecFloat.fexp fprec femax) with (FLT_exp (-1074) 53).
  apply generic_format_FLT. exists (Float radix2 m e); [reflexivity|exact Hm|exact He].
Qed.

Lemma small_exact m e : (Z.abs m < 2 ^ 53)%Z -> (e <= 971)%Z -> small (IZR m * bpow radix2 e).
Proof.
  intros Hm He. unfold small. rewrite Rabs_mult, <- abs_IZR.
  rewrite (Rabs_pos_eq (bpow radix2 e)) by apply bpow_ge_0.
  apply Rlt_le_trans with (IZR (2 ^ 53) * bpow radix2 e).
  - apply Rmult_lt_compat_r; [apply bpow_gt_0|]. now apply IZR_lt.
  - change (IZR (2 ^ 53)) with (bpow radix2 53). rewrite <- bpow_plus. apply bpow_le. unfold femax. lia.
Qed.

(** Exact results *)
Definition dyadic (x : flt) (m e : Z) : Prop := is_val x (IZR m * bpow radix2 e).

Lemma f_of_int_exact z : (Z.abs z < 2 ^ 53)%Z -> dyadic (f_of_int z) z 0.
Proof.
  intros H. unfold f_of_int, dyadic. rewrite <- (rnd_exact z 0) by lia.
  apply normalize_val. rewrite rnd_exact by lia. apply small_exact; lia.
Qed.
Lemma f_pow2_exact k : (-1074 <= k <= 971)%Z -> dyadic (f_pow2 k) 1 k.
Proof.
  intros H. unfold f_pow2, dyadic. rewrite <- (rnd_exact 1 k) by lia.
  apply normalize_val. rewrite rnd_exact by lia. apply small_exact; lia.
Qed.
Lemma mul_exact x y a b m n : dyadic x a m -> dyadic y b n -> (Z.abs (a * b) < 2 ^ 53)%Z ->
  (-1074 <= m + n <= 971)%Z -> dyadic (f_mul x y) (a * b) (m + n).
Proof.
  intros Hx Hy H1 H2. unfold dyadic in *.
  assert (E : IZR a * bpow radix2 m * (IZR b * bpow radix2 n) = IZR (a * b) * bpow radix2 (m + n))
    by (rewrite mult_IZR, bpow_plus; ring).
  pose proof (mul_val _ _ _ _ Hx Hy) as M. rewrite E, rnd_exact in M by lia.
  apply M. apply small_exact; lia.
Qed.
Lemma add_exact x y a b c m n k : dyadic x a m -> dyadic y b n ->
  (c = a * 2 ^ (m - k) + b * 2 ^ (n - k))%Z -> (k <= m)%Z -> (k <= n)%Z -> (Z.abs c < 2 ^ 53)%Z ->
  (-1074 <= k <= 971)%Z -> dyadic (f_add x y) c k.
Proof.
  intros Hx Hy Hc Hm Hn H1 H2. unfold dyadic in *.
  assert (P : forall j, (k <= j)%Z -> IZR (2 ^ (j - k)) = bpow radix2 (j - k))
    by (intros; apply (IZR_Zpower radix2); lia).
  assert (E : IZR a * bpow radix2 m + IZR b * bpow radix2 n = IZR c * bpow radix2 k).
  { rewrite Hc, plus_IZR, !mult_IZR, !P by lia. rewrite Rmult_plus_distr_r, !Rmult_assoc, <- !bpow_plus.
    now rewrite !Z.sub_add. }
  pose proof (add_val _ _ _ _ Hx Hy) as M. rewrite E, rnd_exact in M by lia.
  apply M. apply small_exact; lia.
Qed.
Lemma div_pow2_exact x y a m n : dyadic x a m -> dyadic y 1 n -> (Z.abs a < 2 ^ 53)%Z ->
  (-1074 <= m - n <= 971)%Z -> dyadic (f_div x y) a (m - n).
Proof.
  intros Hx Hy H1 H2. unfold dyadic in *.
  assert (E : IZR a * bpow radix2 m / (1 * bpow radix2 n) = IZR a * bpow radix2 (m - n)).
  { unfold Zminus. rewrite bpow_plus, bpow_opp. field. apply Rgt_not_eq, bpow_gt_0. }
  pose proof (div_val _ _ _ _ Hx Hy) as M. rewrite E, rnd_exact in M by lia.
  apply M; [|apply small_exact; lia]. rewrite Rmult_1_l. apply Rgt_not_eq, bpow_gt_0.
Qed.

(** Absolute error of one rounding below 2^k. *)
Lemma rnd_error r k : (-1000 <= k <= 1000)%Z -> Rabs r < bpow radix2 k ->
  Rabs (rnd r - r) <= bpow radix2 (k - 54) /\ small (rnd r).
Proof.
  intros Hk Hr.
  assert (E : Rabs (rnd r - r) <= bpow radix2 (k - 54)).
  { unfold rnd. change (SpecFloat.fexp fprec femax) with (FLT_exp (-1074) 53).
    destruct (Req_dec r 0) as [->|N].
    - rewrite round_0 by auto with typeclass_instances. rewrite Rminus_0_r, Rabs_R0. apply bpow_ge_0.
    - eapply Rle_trans; [apply error_le_half_ulp; auto with typeclass_instances|].
      rewrite ulp_neq_0 by exact N. unfold cexp, FLT_exp.
      assert (M : (mag radix2 r <= k)%Z) by (apply mag_le_bpow; [exact N|exact Hr]).
      replace (k - 54)%Z with (-1 + (k - 53))%Z by lia. rewrite bpow_plus.
      change (bpow radix2 (-1)) with (/ 2). apply Rmult_le_compat_l; [lra|]. apply bpow_le. lia. }
  split; [exact E|]. unfold small.
  apply Rle_lt_trans with (Rabs (rnd r - r) + Rabs r).
  { replace (rnd r) with ((rnd r - r) + r) at 1 by ring. apply Rabs_triang. }
  apply Rlt_le_trans with (bpow radix2 k + bpow radix2 k).
  { apply Rplus_le_lt_compat; [|exact Hr]. eapply Rle_trans; [exact E|]. apply bpow_le. lia. }
  assert (D : bpow radix2 k + bpow radix2 k = bpow radix2 1 * bpow radix2 k)
    by (change (bpow radix2 1) with 2; ring).
  rewrite D.
  rewrite <- bpow_plus. apply bpow_le. unfold femax. lia.
Qed.
