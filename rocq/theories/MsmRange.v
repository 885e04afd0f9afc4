(** * MsmRange: accuracy of the reconstructed ranges in binary64. *)
From Coq Require Import ZArith Reals Psatz SpecFloat Lia.
From Flocq Require Import Core.
From Verif Require Import PyBase PyFloat FloatProofs MessageSpec MsmSpec MsmScaleSpec.
Open Scope R_scope.

(** The exact rough range in milliseconds, and the resolutions of the fine fields. *)
Definition rough_exact (t : msm_type) (s : sat_data) : R :=
  match t with
  | MSM1 | MSM2 | MSM3 => IZR (sd_rough s) / 1024
  | _ => IZR (sd_ms s) + IZR (sd_rough s) / 1024
  end.
Definition code_resolution (t : msm_type) : R := if extended t then / 2 ^ 29 else / 2 ^ 24.
Definition phase_resolution (t : msm_type) : R := if extended t then / 2 ^ 31 else / 2 ^ 29.
Definition metres_exact (rough fine : R) : R := (rough + fine) * 299792.458.

Lemma lit_val : exists l, is_val (dec_lit 299792458 3) l /\ Rabs (l - 299792.458) <= bpow radix2 (-35).
Proof.
  pose proof (f_of_int_exact 299792458 ltac:(lia)) as A.
  pose proof (f_of_int_exact (10 ^ 3) ltac:(lia)) as B. unfold dyadic in A, B.
  assert (E : IZR 299792458 * bpow radix2 0 / (IZR (10 ^ 3) * bpow radix2 0) = 299792.458)
    by (change (bpow radix2 0) with 1; change (10 ^ 3)%Z with 1000%Z; lra).
  destruct (rnd_error 299792.458 19 ltac:(lia)) as [E1 E2].
  { rewrite Rabs_pos_eq by lra. change (bpow radix2 19) with 524288. lra. }
  pose proof (div_val _ _ _ _ A B) as D. rewrite E in D.
  exists (rnd 299792.458). split; [|exact E1]. apply D; [|exact E2].
  change (bpow radix2 0) with 1. change (10 ^ 3)%Z with 1000%Z. lra.
Qed.

Lemma metres_error rough fine res a k :
  dyadic rough a (-10) -> dyadic res 1 k -> (-31 <= k <= -24)%Z ->
  (0 <= a < 255 * 1024)%Z -> (Z.abs fine <= 2 ^ 23)%Z ->
  (Z.abs fine * 2 ^ (k + 31) <= 2 ^ 24)%Z ->
  exists x, is_val (metres rough fine res) x /\
    Rabs (x - metres_exact (IZR a / 1024) (IZR fine * bpow radix2 k)) < 2 / 10 ^ 8.
Proof.
  intros HR HS Hk Ha Hf Hfk. unfold metres.
  pose proof (f_of_int_exact fine ltac:(lia)) as F.
  pose proof (mul_exact _ _ _ _ _ _ F HS ltac:(lia) ltac:(lia)) as P.
  rewrite Z.mul_1_r, Z.add_0_l in P.
  assert (P2 : (2 ^ (k + 31) * 2 ^ 0 = 2 ^ (k - -31))%Z) by (rewrite Z.mul_1_r; f_equal; lia).
  set (c := (a * 2 ^ (-10 - -31) + fine * 2 ^ (k - -31))%Z).
  assert (Hc : (Z.abs c < 2 ^ 39)%Z).
  { unfold c. rewrite <- P2. change (2 ^ (-10 - -31))%Z with 2097152%Z.
    assert (Z.abs (fine * (2 ^ (k + 31) * 2 ^ 0)) <= 2 ^ 24)%Z.
    { rewrite Z.mul_1_r, Z.abs_mul, (Z.abs_eq (2 ^ (k + 31))) by (apply Z.pow_nonneg; lia). exact Hfk. }
    change (2 ^ 24)%Z with 16777216%Z in *. change (2 ^ 39)%Z with 549755813888%Z. lia. }
  assert (S : dyadic (f_add rough (f_mul (f_of_int fine) res)) c (-31)).
  { eapply add_exact; [exact HR|exact P|reflexivity|lia|lia|lia|lia]. }
  destruct lit_val as (l & L1 & L2).
  set (v := IZR c * bpow radix2 (-31)).
  assert (Hv : v = IZR a / 1024 + IZR fine * bpow radix2 k).
  { unfold v, c. rewrite plus_IZR, !mult_IZR.
    assert (Q1 : IZR (2 ^ (k - -31)) = bpow radix2 (k - -31)) by (apply (IZR_Zpower radix2); lia).
    assert (Q2 : IZR (2 ^ (-10 - -31)) = bpow radix2 (-10 - -31)) by (apply (IZR_Zpower radix2); lia).
    rewrite Q1, Q2.
    rewrite Rmult_plus_distr_r, !Rmult_assoc, <- !bpow_plus.
    replace (-10 - -31 + -31)%Z with (-10)%Z by lia. replace (k - -31 + -31)%Z with k by lia.
    change (bpow radix2 (-10)) with (/ 1024). lra. }
  assert (Av : Rabs v < 256).
  { unfold v. rewrite Rabs_mult, <- abs_IZR, (Rabs_pos_eq (bpow radix2 (-31))) by apply bpow_ge_0.
    apply Rlt_le_trans with (IZR (2 ^ 39) * bpow radix2 (-31)).
    - apply Rmult_lt_compat_r; [apply bpow_gt_0|]. now apply IZR_lt.
    - change (IZR (2 ^ 39)) with (bpow radix2 39). rewrite <- bpow_plus.
      change (bpow radix2 (39 + -31)) with 256. lra. }
  assert (B35 : bpow radix2 (-35) = / 34359738368) by reflexivity.
  assert (Bl : Rabs l <= 299793).
  { replace l with ((l - 299792.458) + 299792.458) by ring.
    eapply Rle_trans; [apply Rabs_triang|]. rewrite (Rabs_pos_eq 299792.458) by lra.
    rewrite B35 in L2. lra. }
  assert (Bp : Rabs (v * l) < bpow radix2 27).
  { rewrite Rabs_mult. change (bpow radix2 27) with 134217728.
    apply Rle_lt_trans with (256 * 299793); [|lra].
    apply Rmult_le_compat; [apply Rabs_pos|apply Rabs_pos|lra|exact Bl]. }
  destruct (rnd_error (v * l) 27 ltac:(lia) Bp) as [E1 E2].
  exists (rnd (v * l)). split; [exact (mul_val _ _ _ _ S L1 E2)|].
  unfold metres_exact. rewrite <- Hv.
  replace (rnd (v * l) - v * 299792.458) with ((rnd (v * l) - v * l) + v * (l - 299792.458)) by ring.
  eapply Rle_lt_trans; [apply Rabs_triang|].
  assert (E3 : Rabs (v * (l - 299792.458)) <= 256 * / 34359738368).
  { rewrite Rabs_mult. rewrite <- B35.
    apply Rmult_le_compat; [apply Rabs_pos|apply Rabs_pos|lra|exact L2]. }
  change (bpow radix2 (27 - 54)) with (/ 134217728) in E1. lra.
Qed.

Definition sat_fits (t : msm_type) (s : sat_data) : Prop :=
  Forall (fun c => fits c s) (sat_columns t).
Definition cell_fits (t : msm_type) (c : cell_data) : Prop :=
  Forall (fun k => fits k c) (cell_columns t).

Lemma rough_ok t s r : sat_fits t s -> rough_ms t s = Some r ->
  exists a, dyadic r a (-10) /\ (0 <= a < 255 * 1024)%Z /\ rough_exact t s = IZR a / 1024.
Proof.
  intros HF H. unfold sat_fits in HF. rewrite Forall_forall in HF.
  assert (D : forall z, (0 <= z < 255 * 1024)%Z -> dyadic (f_div (f_of_int z) (f_of_int 1024)) z (-10)).
  { intros z Hz. assert (B : dyadic (f_of_int 1024) 1 10).
    { pose proof (f_of_int_exact 1024 ltac:(lia)) as X. unfold dyadic in *.
      replace (1 * bpow radix2 10) with (1024 * bpow radix2 0); [exact X|].
      change (bpow radix2 0) with 1. change (bpow radix2 10) with 1024. ring. }
    change (-10)%Z with (0 - 10)%Z. apply div_pow2_exact; try lia; [apply f_of_int_exact; lia|exact B]. }
  assert (HRO : (0 <= sd_rough s < 1024)%Z).
  { destruct t; cbn [sat_columns In] in HF.
    all: match type of HF with forall c, ?P -> _ =>
           assert (X : fits (10%nat, Unsigned, sd_rough) s) by (apply HF; tauto) end.
    all: exact X. }
  assert (W : (255 * 1024)%Z = 261120%Z) by reflexivity.
  assert (G : forall ms, (0 <= ms < 255)%Z -> rough_exact t s = IZR ms + IZR (sd_rough s) / 1024 ->
     r = f_div (f_of_int (ms * 1024 + sd_rough s)) (f_of_int 1024) ->
     exists a, dyadic r a (-10) /\ (0 <= a < 255 * 1024)%Z /\ rough_exact t s = IZR a / 1024).
  { intros ms H1 H2 ->. exists (ms * 1024 + sd_rough s)%Z. split; [apply D; lia|]. split; [lia|].
    rewrite H2, plus_IZR, mult_IZR. field. }
  destruct t; cbn [rough_ms rough_exact sat_columns In] in *;
    try (inversion H; subst r; exists (sd_rough s); split; [apply D; lia|]; split; [lia|reflexivity]);
    (destruct (sd_ms s =? 255)%Z eqn:E; [discriminate|]; inversion H; subst r;
     apply Z.eqb_neq in E;
     assert (X : fits (8%nat, Unsigned, sd_ms) s) by (apply HF; tauto);
     cbn [fits] in X; unfold fits_u in X; change (2 ^ Z.of_nat 8)%Z with 256%Z in X;
     apply (G (sd_ms s)); [lia|reflexivity|reflexivity]).
Qed.

Lemma pow2_res k : (-1000 <= k <= 0)%Z -> bpow radix2 k = / 2 ^ Z.to_nat (- k).
Proof.
  intros H. rewrite <- (Z.opp_involutive k) at 1. rewrite bpow_opp. f_equal.
  rewrite bpow_powerRZ. rewrite pow_powerRZ. f_equal. rewrite Z2Nat.id by lia. reflexivity.
Qed.

Lemma code_range_accurate t s c x : sat_fits t s -> cell_fits t c -> code_range t s c = Some x ->
  exists r, is_val x r /\
    Rabs (r - metres_exact (rough_exact t s) (IZR (cd_rng c) * code_resolution t)) < 2 / 10 ^ 8.
Proof.
  intros HS HC H. unfold code_range in H. destruct (rough_ms t s) as [ro|] eqn:ER; [|discriminate].
  destruct (has_range t && negb (range_invalid t c)) eqn:EV; [|discriminate]. inversion H; subst x.
  apply Bool.andb_true_iff in EV. destruct EV as [EV _].
  destruct (rough_ok t s ro HS ER) as (a & A1 & A2 & ->).
  unfold cell_fits in HC. rewrite Forall_forall in HC.
  set (k := (if extended t then -29 else -24)%Z).
  assert (EK : code_resolution t = bpow radix2 k).
  { unfold code_resolution, k. destruct (extended t); rewrite pow2_res by lia; reflexivity. }
  assert (B : (Z.abs (cd_rng c) <= if extended t then 2 ^ 19 else 2 ^ 14)%Z).
  { destruct t; try discriminate EV; cbn [extended cell_columns In] in *;
      ((assert (X : fits (15%nat, Signed, cd_rng) c) by (apply HC; tauto)) ||
       (assert (X : fits (20%nat, Signed, cd_rng) c) by (apply HC; tauto)));
      unfold fits, fits_s in X; cbn -[Z.pow] in X;
      match type of X with (- 2 ^ ?e <= _ < _)%Z => change (2 ^ e)%Z with (2 ^ (e))%Z in X end;
      change (Z.pos 15 - 1)%Z with 14%Z in X || change (Z.pos 20 - 1)%Z with 19%Z in X || idtac; lia. }
  rewrite EK. apply metres_error; try assumption.
  - apply f_pow2_exact. unfold k. destruct (extended t); lia.
  - unfold k. destruct (extended t); lia.
  - destruct (extended t); lia.
  - unfold k. destruct (extended t).
    + change (2 ^ (-29 + 31))%Z with 4%Z. lia.
    + change (2 ^ (-24 + 31))%Z with 128%Z. lia.
Qed.

Lemma phase_range_accurate t s c x : sat_fits t s -> cell_fits t c -> phase_range t s c = Some x ->
  exists r, is_val x r /\
    Rabs (r - metres_exact (rough_exact t s) (IZR (cd_phs c) * phase_resolution t)) < 2 / 10 ^ 8.
Proof.
  intros HS HC H. unfold phase_range in H. destruct (rough_ms t s) as [ro|] eqn:ER; [|discriminate].
  destruct (has_phase t && negb (phase_invalid t c)) eqn:EV; [|discriminate]. inversion H; subst x.
  apply Bool.andb_true_iff in EV. destruct EV as [EV _].
  destruct (rough_ok t s ro HS ER) as (a & A1 & A2 & ->).
  unfold cell_fits in HC. rewrite Forall_forall in HC.
  set (k := (if extended t then -31 else -29)%Z).
  assert (EK : phase_resolution t = bpow radix2 k).
  { unfold phase_resolution, k. destruct (extended t); rewrite pow2_res by lia; reflexivity. }
  assert (B : (Z.abs (cd_phs c) <= if extended t then 2 ^ 23 else 2 ^ 21)%Z).
  { destruct t; try discriminate EV; cbn [extended cell_columns In] in *;
      ((assert (X : fits (22%nat, Signed, cd_phs) c) by (apply HC; tauto)) ||
       (assert (X : fits (24%nat, Signed, cd_phs) c) by (apply HC; tauto)));
      unfold fits, fits_s in X; cbn -[Z.pow] in X; lia. }
  rewrite EK. apply metres_error; try assumption.
  - apply f_pow2_exact. unfold k. destruct (extended t); lia.
  - unfold k. destruct (extended t); lia.
  - destruct (extended t); lia.
  - unfold k. destruct (extended t).
    + change (2 ^ (-31 + 31))%Z with 1%Z. lia.
    + change (2 ^ (-29 + 31))%Z with 4%Z. lia.
Qed.
