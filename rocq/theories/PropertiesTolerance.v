(** * PropertiesTolerance: C43 - the comparison of objects when no tolerance is named. *)
From Coq Require Import Reals Psatz Lia Lra.
From Flocq Require Import Core BinarySingleNaN.
From Verif Require Import PyBase PyDict PyFloat PyVal FloatProofs CompareModel CompareSpec CompareProofs PropertiesCompare.
Local Open Scope R_scope.

(** The tolerance that is taken then. *)
Definition u : R := / 1000000000000000.

Lemma default_value : exists t, tolerance DEF_FLOAT_CMP_TOLR t /\ Rabs (t - u) <= bpow radix2 (-52) * u.
Proof.
  exists (IZR 5070602400912918 * bpow radix2 (-102)).
  assert (P : bpow radix2 (-102) = / IZR (2 ^ 102)) by reflexivity.
  assert (Q : bpow radix2 (-52) = / IZR (2 ^ 52)) by reflexivity.
  assert (X : DEF_FLOAT_CMP_TOLR = S754_finite false 5070602400912918 (-102)) by (vm_compute; reflexivity).
  split; [split|].
  - rewrite X. split; [vm_compute; reflexivity|]. split; [vm_compute; reflexivity|]. reflexivity.
  - split.
    + apply Rle_trans with (1 * bpow radix2 (-102 + 2)); [rewrite Rmult_1_l; apply bpow_le; lia|].
      rewrite bpow_plus. change (bpow radix2 2) with 4. pose proof (bpow_gt_0 radix2 (-102)). nra.
    + rewrite P. apply Rmult_le_reg_r with (IZR (2 ^ 102)); [apply IZR_lt; reflexivity|]. rewrite Rmult_assoc, Rinv_l, Rmult_1_r, Rmult_1_l by (apply not_0_IZR; discriminate).
      apply IZR_le. vm_compute. discriminate.
  - unfold u. rewrite P, Q.
    assert (N1 : IZR (2 ^ 102) <> 0) by (apply not_0_IZR; discriminate). assert (N2 : IZR (2 ^ 52) <> 0) by (apply not_0_IZR; discriminate).
    assert (Y : IZR 5070602400912918 * / IZR (2 ^ 102) - / 1000000000000000 =
                (IZR (5070602400912918 * 1000000000000000 - 2 ^ 102)) * / IZR (2 ^ 102) * / 1000000000000000).
    { rewrite minus_IZR, mult_IZR. field. exact N1. }
    rewrite Y, !Rabs_mult, !Rabs_inv, <- abs_IZR, (Rabs_pos_eq (IZR (2 ^ 102))), (Rabs_pos_eq 1000000000000000) by (try lra; apply IZR_le; vm_compute; discriminate).
    apply Rmult_le_compat_r; [lra|]. apply Rmult_le_reg_r with (IZR (2 ^ 102)); [apply IZR_lt; reflexivity|]. rewrite Rmult_assoc, Rinv_l, Rmult_1_r by exact N1.
    apply Rmult_le_reg_l with (IZR (2 ^ 52)); [apply IZR_lt; reflexivity|]. rewrite <- Rmult_assoc, Rinv_r, Rmult_1_l by exact N2.
    rewrite <- mult_IZR. apply IZR_le. vm_compute. discriminate.
Qed.

(** Two floats are taken for equal when they differ by less than 1e-15, relatively if the second
    one is above this number, absolutely if it is below it or negative; [2 * eps] is room for
    roundings.  Missing as in [C43_accepted_partial]: negative references. *)
Theorem C43_default_partial : forall A B a b, ordinary A a -> ordinary B b ->
  (compare_float A B DEF_FLOAT_CMP_TOLR = Ok true ->
     (b > (1 + eps) * u -> Rabs (b - a) < (1 + 2 * eps) * u * b) /\ (b < (1 - eps) * u -> Rabs (b - a) < (1 + 2 * eps) * u)) /\
  (b > (1 + eps) * u -> Rabs (b - a) < (1 - 2 * eps) * u * b -> compare_float A B DEF_FLOAT_CMP_TOLR = Ok true) /\
  (b < (1 - eps) * u -> Rabs (b - a) < (1 - 2 * eps) * u -> compare_float A B DEF_FLOAT_CMP_TOLR = Ok true).
Proof.
  intros A B a b HA HB. destruct default_value as (t & HT & E).
  assert (E2 : bpow radix2 (-52) = / 4 * eps) by (unfold eps; change (-52)%Z with (-2 + -50)%Z; rewrite bpow_plus; change (bpow radix2 (-2)) with (/ 4); reflexivity).
  assert (EP : 0 < eps < / 1000) .
  { split; [apply bpow_gt_0|]. unfold eps. apply Rlt_trans with (bpow radix2 (-10)); [apply bpow_lt; lia|]. change (bpow radix2 (-10)) with (/ 1024). lra. }
  rewrite E2 in E. assert (U : 0 < u) by (unfold u; lra). clear E2. remember eps as e eqn:EE.
  apply Rabs_le_inv in E. assert (EU : 0 < e * u) by (apply Rmult_lt_0_compat; lra).
  assert (UP : (1 + e) * t <= (1 + 2 * e) * u).
  { assert (t <= (1 + / 4 * e) * u) by lra. apply Rle_trans with ((1 + e) * ((1 + / 4 * e) * u)); [apply Rmult_le_compat_l; lra|].
    rewrite <- Rmult_assoc. apply Rmult_le_compat_r; [lra|nra]. }
  assert (LO : (1 - 2 * e) * u <= (1 - e) * t).
  { assert ((1 - / 4 * e) * u <= t) by lra. apply Rle_trans with ((1 - e) * ((1 - / 4 * e) * u)); [|apply Rmult_le_compat_l; lra].
    rewrite <- Rmult_assoc. apply Rmult_le_compat_r; [lra|nra]. }
  split; [|split].
  - intros H. pose proof (C43_accepted_partial A B _ a b t HA HB HT H) as W. unfold within in W. rewrite <- EE in W. destruct W as (W1 & W2). split; intros L.
    + eapply Rlt_le_trans; [apply W1; lra|]. apply Rmult_le_compat_r; lra.
    + eapply Rlt_le_trans; [apply W2; lra|]. exact UP.
  - intros L D. apply (C43_accepts_partial A B _ a b t HA HB HT). unfold within. rewrite <- EE. split; intros L'; [|lra].
    eapply Rlt_le_trans; [exact D|]. apply Rmult_le_compat_r; [lra|exact LO].
  - intros L D. apply (C43_accepts_partial A B _ a b t HA HB HT). unfold within. rewrite <- EE. split; intros L'; [lra|]. eapply Rlt_le_trans; [exact D|exact LO].
Qed.
Print Assumptions C43_default_partial.

(** In units of the last place: for a reference between two powers of two, numbers that are off
    by up to four units are accepted, numbers that are off by ten are not. *)
Theorem C43_units : forall A B a b e, ordinary A a -> ordinary B b -> (-40 <= e)%Z ->
  bpow radix2 e <= b < bpow radix2 (e + 1) ->
  (Rabs (b - a) <= 4 * bpow radix2 (e - 52) -> compare_float A B DEF_FLOAT_CMP_TOLR = Ok true) /\
  (10 * bpow radix2 (e - 52) <= Rabs (b - a) -> compare_float A B DEF_FLOAT_CMP_TOLR <> Ok true).
Proof.
  intros A B a b e HA HB He (L1 & L2). destruct (C43_default_partial A B a b HA HB) as (D1 & D2 & _).
  assert (EP : 0 < eps < / 1000) .
  { split; [apply bpow_gt_0|]. unfold eps. apply Rlt_trans with (bpow radix2 (-10)); [apply bpow_lt; lia|]. change (bpow radix2 (-10)) with (/ 1024). lra. }
  assert (BU : b > (1 + eps) * u).
  { assert (bpow radix2 (-40) <= b) by (eapply Rle_trans; [apply bpow_le; exact He|exact L1]). change (bpow radix2 (-40)) with (/ IZR (2 ^ 40)) in H.
    change (2 ^ 40)%Z with 1099511627776%Z in H. unfold u. lra. }
  rewrite bpow_plus in L2. change (bpow radix2 1) with 2 in L2. unfold Z.sub. rewrite bpow_plus.
  assert (U52 : bpow radix2 (- (52)) = / 4503599627370496) by reflexivity. rewrite U52. set (x := bpow radix2 e) in *. assert (0 < x) by apply bpow_gt_0. clearbody x.
  unfold u in *. split.
  - intros D. apply D2; [exact BU|]. eapply Rle_lt_trans; [exact D|].
    apply Rle_lt_trans with (4 * (b * / 4503599627370496)); [apply Rmult_le_compat_l; [lra|]; apply Rmult_le_compat_r; lra|].
    assert (eps * b <= / 1000 * b) by (apply Rmult_le_compat_r; lra). set (k := eps * b) in *.
    replace ((1 - 2 * eps) * / 1000000000000000 * b) with (/ 1000000000000000 * (b - 2 * k)) by (unfold k; ring). lra.
  - intros D H'. specialize (proj1 (D1 H') BU) as Q. assert (eps * b <= / 1000000 * b).
    { apply Rmult_le_compat_r; [lra|]. unfold eps. apply Rle_trans with (bpow radix2 (-20)); [apply bpow_le; lia|]. change (bpow radix2 (-20)) with (/ 1048576). lra. }
    set (k := eps * b) in *. replace ((1 + 2 * eps) * / 1000000000000000 * b) with (/ 1000000000000000 * (b + 2 * k)) in Q by (unfold k; ring). lra.
Qed.
Print Assumptions C43_units.

Local Open Scope Z_scope.
(** Around one: 1 + 4 units agrees with 1, 1 + 10 units does not. *)
Example C43_units_nonvacuous :
  let near k := SFadd fprec femax (f_of_int 1) (S754_finite false (k * 2 ^ 48) (-100)) in
  ordinary (f_of_int 1) 1 /\ (bpow radix2 0 <= 1 < bpow radix2 (0 + 1))%R /\
  compare_float (near 4%positive) (f_of_int 1) DEF_FLOAT_CMP_TOLR = Ok true /\
  compare_float (near 10%positive) (f_of_int 1) DEF_FLOAT_CMP_TOLR = Ok false /\
  compare_float (near 5%positive) (f_of_int 1) DEF_FLOAT_CMP_TOLR = Ok false.
Proof.
  split.
  { split.
    - pose proof (f_of_int_exact 1 ltac:(lia)) as D. unfold dyadic in D. now rewrite Rmult_1_r in D.
    - rewrite Rabs_pos_eq by lra. change 1%R with (bpow radix2 0). apply bpow_le. lia. }
  split; [change (bpow radix2 0) with 1%R; change (bpow radix2 (0 + 1)) with 2%R; lra|]. vm_compute. repeat split.
Qed.
