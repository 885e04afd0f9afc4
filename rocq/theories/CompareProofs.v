(** * CompareProofs: float comparison against the reals. *)
From Coq Require Import Reals Psatz Lia.
From Flocq Require Import Core Relative BinarySingleNaN.
From Verif Require Import PyBase PyDict PyFloat PyVal FloatProofs CompareModel CompareSpec.
Open Scope R_scope.

Local Instance Hprec : FLX.Prec_gt_0 fprec := eq_refl _.
Local Instance Hmax : Prec_lt_emax fprec femax := eq_refl _.

Lemma sub_val x y a b : is_val x a -> is_val y b -> small (rnd (a - b)) ->
  is_val (f_sub x y) (rnd (a - b)).
Proof.
  intros Hx Hy S. apply is_val_B in Hx, Hy. destruct Hx as (p & -> & Fp & Ep), Hy as (q & -> & Fq & Eq).
  assert (E : f_sub (B2SF p) (B2SF q) = B2SF (Bminus mode_NE p q)).
  { unfold f_sub. case p as [sx|sx| |sx mx ex Bx]; case q as [sy|sy| |sy my ey By];
      [now (trivial || simpl; case sx; case sy).. | ].
    unfold Bminus, Bplus, Bopp. cbv beta iota zeta. rewrite <- (binary_normalize_equiv _ _ _).
    unfold SFsub, B2SF, Fplus_naive. f_equal. now case sy. }
  rewrite E. pose proof (Bminus_correct fprec femax Hprec Hmax mode_NE p q Fp Fq) as C.
  rewrite Rlt_bool_true in C by (rewrite Ep, Eq; exact S). destruct C as (C1 & C2 & _).
  apply B_is_val; [exact C2|]. rewrite C1, Ep, Eq. reflexivity.
Qed.
Lemma abs_val x a : is_val x a -> is_val (f_abs x) (Rabs a).
Proof.
  intros H. apply is_val_B in H. destruct H as (p & -> & Fp & Ep).
  assert (E : f_abs (B2SF p) = B2SF (Babs p)) by (now destruct p).
  rewrite E. apply B_is_val; [rewrite is_finite_Babs; exact Fp|]. now rewrite B2R_Babs, Ep.
Qed.
Lemma ltb_val x y a b : is_val x a -> is_val y b -> f_ltb x y = true <-> a < b.
Proof.
  intros Hx Hy. apply is_val_B in Hx, Hy. destruct Hx as (p & -> & Fp & Ep), Hy as (q & -> & Fq & Eq).
  pose proof (Bcompare_correct fprec femax p q Fp Fq) as C. unfold Bcompare in C.
  unfold f_ltb. rewrite C, Ep, Eq. destruct (Rcompare_spec a b); split; try discriminate; try lra; auto.
Qed.
Lemma ltb_val_false x y a b : is_val x a -> is_val y b -> f_ltb x y = false <-> b <= a.
Proof.
  intros Hx Hy. pose proof (ltb_val x y a b Hx Hy) as H. destruct (f_ltb x y); split; intros X; try congruence.
  - pose proof (proj1 H eq_refl). lra.
  - destruct (Rle_or_lt b a) as [L|L]; [exact L|]. apply H in L. discriminate.
Qed.
Lemma val_not_nan x a : is_val x a -> isnan x = false.
Proof. intros (_ & F & _). now destruct x. Qed.

(** Relative error of a rounding. *)
Lemma rnd_rel r : Rabs (rnd r - r) <= bpow radix2 (-53) * Rabs r + bpow radix2 (-1075).
Proof.
  unfold rnd. change (SpecFloat.fexp fprec femax) with (FLT_exp (-1074) 53).
  destruct (Rle_or_lt (bpow radix2 (-1022)) (Rabs r)) as [L|L].
  - pose proof (relative_error_N_FLT radix2 (-1074) 53 eq_refl (fun x => negb (Z.even x)) r L) as E.
    assert (X : / 2 * bpow radix2 (Z.opp 53 + 1) = bpow radix2 (-53)).
    { change (/ 2) with (bpow radix2 (-1)). rewrite <- bpow_plus. reflexivity. }
    rewrite X in E. pose proof (bpow_ge_0 radix2 (-1075)). eapply Rle_trans; [exact E|]. lra.
  - destruct (Req_dec r 0) as [->|N].
    + rewrite round_0 by auto with typeclass_instances. rewrite Rminus_0_r, Rabs_R0.
      pose proof (bpow_ge_0 radix2 (-1075)). lra.
    + assert (E : Rabs (round radix2 (FLT_exp (-1074) 53) ZnearestE r - r) <= bpow radix2 (-1075)).
      { eapply Rle_trans; [apply error_le_half_ulp; auto with typeclass_instances|].
        rewrite ulp_neq_0 by exact N. unfold cexp, FLT_exp.
        assert (M : (mag radix2 r <= -1022)%Z) by (apply mag_le_bpow; [exact N|exact L]).
        change (-1075)%Z with (-1 + -1074)%Z. rewrite bpow_plus. change (bpow radix2 (-1)) with (/ 2).
        apply Rmult_le_compat_l; [lra|]. apply bpow_le. lia. }
      pose proof (bpow_ge_0 radix2 (-53)). pose proof (Rabs_pos r).
      assert (0 <= bpow radix2 (-53) * Rabs r) by now apply Rmult_le_pos. lra.
Qed.
Lemma rnd_small r k : (-1000 <= k <= 1000)%Z -> Rabs r < bpow radix2 k -> small (rnd r).
Proof. intros K H. now apply (rnd_error r k). Qed.
Lemma rnd_mono a b : a <= b -> rnd a <= rnd b.
Proof. intros H. unfold rnd. change (SpecFloat.fexp fprec femax) with (FLT_exp (-1074) 53). apply round_le; auto with typeclass_instances. Qed.
Lemma rnd_val x r : is_val x r -> rnd r = r.
Proof.
  intros H. apply is_val_B in H. destruct H as (p & _ & _ & <-). apply round_generic; [auto with typeclass_instances|].
  apply generic_format_B2R.
Qed.
Lemma rnd_abs r : rnd (Rabs r) = Rabs (rnd r).
Proof.
  unfold rnd, Rabs. destruct (Rcase_abs r) as [L|L].
  - rewrite round_NE_opp. destruct (Rcase_abs (round radix2 (SpecFloat.fexp fprec femax) ZnearestE r)) as [M|M]; [reflexivity|].
    assert (X : rnd r <= rnd 0) by (apply rnd_mono; lra). unfold rnd in X. rewrite round_0 in X by auto with typeclass_instances. lra.
  - destruct (Rcase_abs (round radix2 (SpecFloat.fexp fprec femax) ZnearestE r)) as [M|M]; [|reflexivity].
    assert (X : rnd 0 <= rnd r) by (apply rnd_mono; lra). unfold rnd in X. rewrite round_0 in X by auto with typeclass_instances. lra.
Qed.

(** What [compare_float] computes. *)
Lemma compare_float_val A B T a b t : ordinary A a -> ordinary B b -> tolerance T t ->
  compare_float A B T = Ok true <->
  (b > t -> rnd (Rabs (rnd (b - a) / b)) < t) /\ (b <= t -> rnd (Rabs (b - a)) < t).
Proof.
  intros [VA BA] [VB BB] [VT BT]. unfold compare_float. rewrite (val_not_nan _ _ VA), (val_not_nan _ _ VB). cbn [andb orb].
  assert (P100 : 0 < bpow radix2 (-100)) by apply bpow_gt_0.
  assert (D : Rabs (b - a) <= bpow radix2 801).
  { replace (b - a) with (b + - a) by ring. eapply Rle_trans; [apply Rabs_triang|]. rewrite Rabs_Ropp.
    change 801%Z with (1 + 800)%Z. rewrite bpow_plus. change (bpow radix2 1) with 2. lra. }
  assert (D' : Rabs (b - a) < bpow radix2 802) by (eapply Rle_lt_trans; [exact D|]; apply bpow_lt; lia).
  pose proof (sub_val B A b a VB VA (rnd_small _ 802 ltac:(lia) D')) as VS.
  destruct (f_ltb T B) eqn:L.
  - pose proof (proj1 (ltb_val _ _ _ _ VT VB) L) as L'. assert (NZ : b <> 0) by lra.
    assert (Bn : match B with S754_zero _ => True | _ => False end -> False).
    { destruct VB as (_ & _ & EB). destruct B; try tauto. cbn in EB. intros _. lra. }
    assert (Q : Rabs (rnd (b - a) / b) < bpow radix2 904).
    { unfold Rdiv. rewrite Rabs_mult. rewrite Rabs_inv. rewrite (Rabs_pos_eq b) by lra.
      assert (Y : Rabs (rnd (b - a)) <= bpow radix2 802).
      { rewrite <- rnd_abs. eapply Rle_trans; [apply rnd_mono, Rlt_le, D'|].
        pose proof (rnd_exact 1 802 ltac:(lia) ltac:(lia)) as X. rewrite !Rmult_1_l in X. rewrite X. lra. }
      assert (Z : / b < bpow radix2 100).
      { change (bpow radix2 100) with (bpow radix2 (- (-100))). rewrite bpow_opp. apply Rinv_lt_contravar; [apply Rmult_lt_0_compat; lra|lra]. }
      assert (0 < / b) by (apply Rinv_0_lt_compat; lra).
      eapply Rle_lt_trans; [apply Rmult_le_compat_r; [lra|exact Y]|].
      change 904%Z with (802 + 102)%Z. rewrite bpow_plus. apply Rmult_lt_compat_l; [apply bpow_gt_0|].
      eapply Rlt_trans; [exact Z|]. apply bpow_lt. lia. }
    pose proof (div_val _ _ _ _ VS VB NZ (rnd_small _ 904 ltac:(lia) Q)) as VD.
    pose proof (abs_val _ _ VD) as VAbs. rewrite <- rnd_abs in VAbs.
    assert (F : fdiv (f_sub B A) B = Ok (f_div (f_sub B A) B)) by (unfold fdiv; destruct B; try reflexivity; now elim Bn).
    rewrite F. cbn [bind]. split.
    + intros H. injection H as H. apply (ltb_val _ _ _ _ VAbs VT) in H. split; [auto|lra].
    + intros [H _]. f_equal. apply (ltb_val _ _ _ _ VAbs VT). apply H. lra.
  - apply (ltb_val_false _ _ _ _ VT VB) in L. cbn [bind].
    pose proof (abs_val _ _ VS) as VAbs. rewrite <- rnd_abs in VAbs. split.
    + intros H. injection H as H. apply (ltb_val _ _ _ _ VAbs VT) in H. split; [lra|auto].
    + intros [_ H]. f_equal. apply (ltb_val _ _ _ _ VAbs VT). apply H. lra.
Qed.

(** Numbers in the margins. *)
Lemma rnd_lt_inv x t : rnd t = t -> rnd x < t -> x < t.
Proof. intros E H. destruct (Rlt_or_le x t) as [L|L]; [exact L|]. pose proof (rnd_mono _ _ L). lra. Qed.
Lemma bpow_c : bpow radix2 (-53) = / 8 * bpow radix2 (-50) /\ 0 < bpow radix2 (-50) < / 1024 /\ 0 < bpow radix2 (-1075) <= bpow radix2 (-900) * bpow radix2 (-100) /\ 0 < bpow radix2 (-900) <= bpow radix2 (-53) * bpow radix2 (-100).
Proof.
  split; [change (-53)%Z with (-3 + -50)%Z; rewrite bpow_plus; change (bpow radix2 (-3)) with (/ 8); ring|].
  split; [split; [apply bpow_gt_0|change (/ 1024) with (bpow radix2 (-10)); apply bpow_lt; lia]|].
  split; (split; [apply bpow_gt_0|rewrite <- bpow_plus; apply bpow_le; lia]).
Qed.
Lemma below_rnd x t : bpow radix2 (-100) <= t -> 0 <= x -> x <= (1 - / 4 * bpow radix2 (-50)) * t -> rnd x < t.
Proof.
  intros Ht Hx H. pose proof (rnd_rel x) as E. destruct bpow_c as (C1 & C2 & C3 & C4).
  rewrite (Rabs_pos_eq x Hx) in E. apply Rabs_le_inv in E.
  set (e := bpow radix2 (-50)) in *. set (d := bpow radix2 (-1075)) in *. set (c := bpow radix2 (-900)) in *. set (k := bpow radix2 (-100)) in *.
  rewrite C1 in *. assert (0 < k) by apply bpow_gt_0.
  assert (d <= c * t) by (eapply Rle_trans; [apply C3|]; apply Rmult_le_compat_l; lra).
  assert (c * t <= / 8 * e * k * t) by (apply Rmult_le_compat_r; lra).
  assert (k <= /8). { change (/ 8) with (bpow radix2 (-3)). apply bpow_le. lia. }
  assert (/ 8 * e * k * t <= / 8 * e * / 8 * t) by (apply Rmult_le_compat_r; [lra|]; apply Rmult_le_compat_l; lra).
  assert (0 < e * t) by (apply Rmult_lt_0_compat; lra).
  nra.
Qed.
Lemma rnd_diff_bounds x : Rabs x <= bpow radix2 802 ->
  (1 - / 8 * bpow radix2 (-50)) * Rabs x - bpow radix2 (-1075) <= Rabs (rnd x) <= (1 + / 8 * bpow radix2 (-50)) * Rabs x + bpow radix2 (-1075).
Proof.
  intros _. pose proof (rnd_rel x) as E. destruct bpow_c as (C1 & _). rewrite C1 in E.
  pose proof (Rabs_triang_inv (rnd x) x). pose proof (Rabs_triang_inv x (rnd x)) as T2. rewrite Rabs_minus_sym in T2. lra.
Qed.
