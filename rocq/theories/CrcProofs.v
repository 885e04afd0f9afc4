(** * CrcProofs: CRC24Q.calc is the polynomial remainder; error-detection power. *)
From Verif Require Import PyBase BitsSpec BitsProofs CrcModel CrcSpec.

(** ** Algebra of the carry-less product *)
Lemma clmul_lxor a b c : clmul (Z.lxor a b) c = Z.lxor (clmul a c) (clmul b c).
Proof.
  induction c as [c IH|c IH|]; cbn [clmul]; rewrite ?IH, ?Z.shiftl_lxor; [|reflexivity..].
  apply Z.bits_inj'; intros i Hi; rewrite !Z.lxor_spec.
  destruct (Z.testbit a i), (Z.testbit b i),
    (Z.testbit (Z.shiftl (clmul a c) 1) i), (Z.testbit (Z.shiftl (clmul b c) 1) i); reflexivity.
Qed.

Lemma clmul_shiftl a n c : 0 <= n -> clmul (Z.shiftl a n) c = Z.shiftl (clmul a c) n.
Proof.
  intros Hn. induction c as [c IH|c IH|]; cbn [clmul]; rewrite ?IH, ?Z.shiftl_lxor;
    rewrite ?Z.shiftl_shiftl by lia; rewrite ?(Z.add_comm n 1); reflexivity.
Qed.

Lemma clmul_0 c : clmul 0 c = 0.
Proof. induction c as [c IH|c IH|]; cbn [clmul]; rewrite ?IH; reflexivity. Qed.

Lemma clmul_top a c : 0 < a ->
  Z.testbit (clmul a c) (Z.log2 a + Z.log2 (Z.pos c)) = true
  /\ forall i, Z.log2 a + Z.log2 (Z.pos c) < i -> Z.testbit (clmul a c) i = false.
Proof.
  intros Ha. pose proof (Z.log2_nonneg a) as Hn.
  induction c as [c [IH1 IH2]|c [IH1 IH2]|]; cbn [clmul].
  - pose proof (Z.log2_nonneg (Z.pos c)).
    replace (Z.log2 (Z.pos c~1)) with (Z.succ (Z.log2 (Z.pos c)))
      by (rewrite <- Z.log2_succ_double by lia; f_equal; lia).
    split.
    + rewrite Z.lxor_spec, Z.shiftl_spec by lia.
      rewrite (Z.bits_above_log2 a) by lia.
      replace (_ + Z.succ _ - 1) with (Z.log2 a + Z.log2 (Z.pos c)) by lia.
      rewrite IH1; reflexivity.
    + intros i Hi. rewrite Z.lxor_spec, Z.shiftl_spec by lia.
      rewrite (Z.bits_above_log2 a) by lia. rewrite IH2 by lia. reflexivity.
  - pose proof (Z.log2_nonneg (Z.pos c)).
    replace (Z.log2 (Z.pos c~0)) with (Z.succ (Z.log2 (Z.pos c)))
      by (rewrite <- Z.log2_double by lia; f_equal; lia).
    split.
    + rewrite Z.shiftl_spec by lia.
      replace (_ + Z.succ _ - 1) with (Z.log2 a + Z.log2 (Z.pos c)) by lia.
      exact IH1.
    + intros i Hi. rewrite Z.shiftl_spec by lia. apply IH2. lia.
  - rewrite Z.log2_1, Z.add_0_r. split.
    + apply Z.bit_log2; lia.
    + intros i Hi. apply Z.bits_above_log2; lia.
Qed.

Lemma clmul_nonneg a c : 0 <= a -> 0 <= clmul a c.
Proof.
  intros Ha. induction c as [c IH|c IH|]; cbn [clmul]; auto.
  - apply Z.lxor_nonneg. rewrite Z.shiftl_nonneg. tauto.
  - now apply Z.shiftl_nonneg.
Qed.

Lemma clmul_degree a c : 0 < a -> 2 ^ Z.log2 (Z.pos c) <= clmul a c.
Proof.
  intros Ha. destruct (clmul_top a c Ha) as [H _].
  pose proof (Z.log2_nonneg a). pose proof (Z.log2_nonneg (Z.pos c)).
  pose proof (clmul_nonneg a c ltac:(lia)) as Hnn.
  destruct (Z.ltb_spec (clmul a c) (2 ^ Z.log2 (Z.pos c))) as [L|L]; [|lia].
  exfalso. assert (E : Z.testbit (clmul a c) (Z.log2 a + Z.log2 (Z.pos c)) = false).
  { destruct (Z.eq_dec (clmul a c) 0) as [Z0|Z0]; [rewrite Z0; apply Z.bits_0|].
    apply Z.bits_above_log2; [lia|]. apply Z.log2_lt_pow2; [lia|].
    apply Z.lt_le_trans with (1 := L). apply Z.pow_le_mono_r; lia. }
  congruence.
Qed.

(** ** Divisibility *)
Lemma gen_divides_0 : gen_divides 0.
Proof. exists 0; split; [lia|apply clmul_0]. Qed.

Lemma gen_divides_lxor a b : gen_divides a -> gen_divides b -> gen_divides (Z.lxor a b).
Proof.
  intros (p & Hp & Ep) (q & Hq & Eq). exists (Z.lxor p q). split.
  - apply Z.lxor_nonneg; tauto.
  - rewrite clmul_lxor; congruence.
Qed.

Lemma gen_divides_shiftl a n : 0 <= n -> gen_divides a -> gen_divides (Z.shiftl a n).
Proof.
  intros Hn (p & Hp & Ep). exists (Z.shiftl p n). split.
  - now apply Z.shiftl_nonneg.
  - rewrite clmul_shiftl by assumption. congruence.
Qed.

Lemma gen_divides_small a : gen_divides a -> a < 2 ^ 24 -> a = 0.
Proof.
  intros (q & Hq & Eq) Ha. destruct (Z.eq_dec q 0) as [->|Hz].
  - rewrite clmul_0 in Eq; lia.
  - pose proof (clmul_degree q crc24q_gen ltac:(lia)) as D.
    change (Z.log2 (Z.pos crc24q_gen)) with 24 in D. lia.
Qed.

Lemma clmul_even_q a : Z.even (clmul a crc24q_gen) = true -> Z.even a = true.
Proof.
  intros H.
  assert (T : Z.testbit (clmul a crc24q_gen) 0 = Z.testbit a 0).
  { unfold crc24q_gen. cbn [clmul]. rewrite Z.lxor_spec.
    rewrite Z.shiftl_spec_low by lia. apply xorb_false_r. }
  rewrite !Z.bit0_odd in T. rewrite <- Z.negb_odd in H |- *. now rewrite <- T.
Qed.

(** x does not divide the generator, so a factor x^n can be cancelled. *)
Lemma gen_divides_cancel a n : 0 <= n -> 0 <= a -> gen_divides (Z.shiftl a n) -> gen_divides a.
Proof.
  intros Hn Ha. revert n Hn.
  refine (natlike_ind _ _ _); [now rewrite Z.shiftl_0_r|].
  intros n Hn IH H. apply IH. clear IH.
  destruct H as (q & Hq & Eq).
  assert (Ev : Z.even q = true).
  { apply clmul_even_q. rewrite Eq.
    rewrite <- Z.negb_odd, <- Z.bit0_odd. rewrite Z.shiftl_spec_low by lia. reflexivity. }
  apply Z.even_spec in Ev as (q' & ->).
  exists q'. split; [lia|].
  replace (2 * q') with (Z.shiftl q' 1) in Eq by (rewrite Z.shiftl_mul_pow2 by lia; lia).
  rewrite clmul_shiftl in Eq by lia.
  replace (Z.succ n) with (n + 1) in Eq by lia.
  rewrite <- Z.shiftl_shiftl in Eq by lia.
  rewrite !Z.shiftl_mul_pow2 in Eq by lia. rewrite !Z.shiftl_mul_pow2 by lia. lia.
Qed.

(** ** The table *)
Fixpoint pdiv_loop (n : nat) (k : Z) (m q : Z) : Z :=
  match n with
  | O => q
  | S n' =>
      if Z.testbit m (k + 24)
      then pdiv_loop n' (k - 1) (Z.lxor m (Z.shiftl (Z.pos crc24q_gen) k)) (Z.lor q (Z.shiftl 1 k))
      else pdiv_loop n' (k - 1) m q
  end.

Definition tab_entry_ok (t : Z) : bool :=
  match py_index crc_tab t with
  | Ok e =>
      let m := Z.lxor (Z.shiftl t 24) e in
      let q := pdiv_loop 8 7 m 0 in
      (0 <=? e) && (e <? 2 ^ 24) && (0 <=? q) && (clmul q crc24q_gen =? m)
  | Err _ => false
  end.

Lemma crc_tab_ok t : 0 <= t < 256 ->
  exists e, py_index crc_tab t = Ok e /\ 0 <= e < 2 ^ 24
            /\ gen_divides (Z.lxor (Z.shiftl t 24) e).
Proof.
  intros Ht.
  assert (E : forallb tab_entry_ok (zrange 0 256) = true) by (vm_compute; reflexivity).
  rewrite forallb_forall in E. specialize (E t (proj2 (zrange_In 0 256 t) Ht)).
  unfold tab_entry_ok in E. destruct (py_index crc_tab t) as [e|]; [|discriminate].
  exists e. split; [reflexivity|].
  apply andb_prop in E as [E1 E2]. apply Z.eqb_eq in E2.
  apply andb_prop in E1 as [E1 E3]. split; [lia|].
  eexists; split; [|exact E2]. lia.
Qed.

(** ** The loop *)
Lemma lxor_bound a b n : 0 <= n -> 0 <= a < 2 ^ n -> 0 <= b < 2 ^ n -> 0 <= Z.lxor a b < 2 ^ n.
Proof.
  intros Hn Ha Hb. split; [apply Z.lxor_nonneg; lia|].
  destruct (Z.eq_dec (Z.lxor a b) 0) as [->|Hz]; [lia|].
  assert (0 <= Z.lxor a b) by (apply Z.lxor_nonneg; lia).
  apply Z.log2_lt_pow2; [lia|].
  pose proof (Z.log2_lxor a b ltac:(lia) ltac:(lia)) as L.
  apply Z.le_lt_trans with (1 := L).
  apply Z.max_lub_lt.
  - destruct (Z.eq_dec a 0) as [->|]; [|apply Z.log2_lt_pow2; lia].
    destruct (Z.eq_dec n 0) as [->|]; [|cbn; lia].
    replace b with 0 in * by lia. cbn in Hz. lia.
  - destruct (Z.eq_dec b 0) as [->|]; [|apply Z.log2_lt_pow2; lia].
    destruct (Z.eq_dec n 0) as [->|]; [|cbn; lia].
    replace a with 0 in * by lia. cbn in Hz. lia.
Qed.

Lemma crc_step_ok m crc d :
  0 <= m -> 0 <= crc < 2 ^ 24 -> byte_ok d -> gen_divides (Z.lxor (m * 2 ^ 24) crc) ->
  exists crc', crc_step crc d = Ok crc' /\ 0 <= crc' < 2 ^ 24 /\
    gen_divides (Z.lxor ((m * 2 ^ 8 + d) * 2 ^ 24) crc').
Proof.
  intros Hm Hc Hd HG. unfold crc_step, byte_ok in *.
  assert (Hs : 0 <= Z.shiftr crc 16 < 256) by (rewrite Z.shiftr_div_pow2 by lia; lia).
  destruct (crc_tab_ok (Z.lxor (Z.shiftr crc 16) d)) as (e & He & Hb & Hdiv).
  { apply (lxor_bound _ _ 8); lia. }
  rewrite He; cbn [bind]. eexists; split; [reflexivity|].
  change 0xFFFFFF with (Z.ones 24). rewrite Z.land_ones by lia.
  assert (HM : 0 <= Z.shiftl crc 8 mod 2 ^ 24 < 2 ^ 24) by (apply Z.mod_pos_bound; lia).
  split; [apply (lxor_bound _ _ 24); lia|].
  pose proof (gen_divides_shiftl _ 8 ltac:(lia) HG) as H8.
  pose proof (gen_divides_lxor _ _ H8 Hdiv) as H.
  replace (Z.lxor ((m * 2 ^ 8 + d) * 2 ^ 24) _) with
    (Z.lxor (Z.shiftl (Z.lxor (m * 2 ^ 24) crc) 8)
            (Z.lxor (Z.shiftl (Z.lxor (Z.shiftr crc 16) d) 24) e)); [exact H|].
  (* split crc<<8 into its top byte and the 24 kept bits *)
  assert (Hcs : Z.shiftl crc 8 =
      Z.lxor (Z.shiftl crc 8 mod 2 ^ 24) (Z.shiftl (Z.shiftr crc 16) 24)).
  { apply Z.bits_inj'. intros i Hi. rewrite Z.lxor_spec.
    destruct (Z.ltb_spec i 24).
    - rewrite Z.mod_pow2_bits_low by lia.
      rewrite (Z.shiftl_spec_low _ 24) by lia. now rewrite xorb_false_r.
    - rewrite Z.mod_pow2_bits_high by lia.
      rewrite !Z.shiftl_spec by lia. rewrite Z.shiftr_spec by lia.
      rewrite xorb_false_l. f_equal; lia. }
  assert (Hmd : (m * 2 ^ 8 + d) * 2 ^ 24 = Z.lxor (Z.shiftl (m * 2 ^ 24) 8) (Z.shiftl d 24)).
  { rewrite !Z.shiftl_mul_pow2 by lia.
    rewrite <- Z.add_nocarry_lxor; [lia|].
    apply Z.bits_inj'. intros i Hi. rewrite Z.land_spec, Z.bits_0.
    replace (m * 2 ^ 24 * 2 ^ 8) with (m * 2 ^ 32) by lia.
    destruct (Z.ltb_spec i 32).
    - rewrite Z.mul_pow2_bits_low by lia. reflexivity.
    - rewrite (Z.mul_pow2_bits d) by lia.
      rewrite andb_comm. destruct (Z.eq_dec d 0) as [->|]; [now rewrite Z.bits_0|].
      rewrite (Z.bits_above_log2 d); [reflexivity|lia|].
      assert (Z.log2 d < 8) by (apply Z.log2_lt_pow2; lia). lia. }
  rewrite Hmd, !Z.shiftl_lxor. rewrite Hcs at 1.
  set (A := Z.shiftl (m * 2 ^ 24) 8). set (C := Z.shiftl crc 8 mod 2 ^ 24).
  set (S := Z.shiftl (Z.shiftr crc 16) 24). set (D := Z.shiftl d 24).
  apply Z.bits_inj'; intros i Hi; rewrite !Z.lxor_spec.
  destruct (Z.testbit A i), (Z.testbit C i), (Z.testbit S i), (Z.testbit D i), (Z.testbit e i);
    reflexivity.
Qed.

Lemma crc_loop_ok data : forall m crc, bytes_ok data ->
  0 <= m -> 0 <= crc < 2 ^ 24 -> gen_divides (Z.lxor (m * 2 ^ 24) crc) ->
  exists crc', for_each data crc crc_step = Ok crc' /\ 0 <= crc' < 2 ^ 24 /\
    gen_divides (Z.lxor ((m * 2 ^ (8 * zlen data) + uval (bits_of data)) * 2 ^ 24) crc').
Proof.
  induction data as [|d data IH]; intros m crc Hb Hm Hc HG.
  - exists crc. split; [reflexivity|]. split; [exact Hc|].
    cbn [bits_of flat_map uval]. change (8 * zlen []) with 0. change (2 ^ 0) with 1.
    replace (m * 1 + 0) with m by lia. exact HG.
  - apply bytes_ok_cons in Hb as [Hd Hl].
    destruct (crc_step_ok m crc d Hm Hc Hd HG) as (c1 & E1 & B1 & G1).
    cbn [for_each]. rewrite E1. cbn [bind].
    destruct (IH (m * 2 ^ 8 + d) c1 Hl ltac:(unfold byte_ok in Hd; lia) B1 G1)
      as (c2 & E2 & B2 & G2).
    exists c2. split; [exact E2|]. split; [exact B2|].
    change (bits_of (d :: data)) with (byte_bits d ++ bits_of data).
    rewrite uval_app, uval_byte_bits, zlen_bits_of, zlen_cons by assumption.
    replace (8 * (1 + zlen data)) with (8 + 8 * zlen data) by lia.
    rewrite Z.pow_add_r by (pose proof (zlen_nonneg data); lia).
    replace (m * (2 ^ 8 * 2 ^ (8 * zlen data)) + (d * 2 ^ (8 * zlen data) + uval (bits_of data)))
      with ((m * 2 ^ 8 + d) * 2 ^ (8 * zlen data) + uval (bits_of data)) by lia.
    exact G2.
Qed.

Lemma crc_calc_correct data : bytes_ok data ->
  exists crc, crc_calc data = Ok crc /\ is_crc24q data crc.
Proof.
  intros Hb. unfold crc_calc, is_crc24q.
  destruct (crc_loop_ok data 0 0 Hb ltac:(lia) ltac:(lia) gen_divides_0) as (c & E & B & G).
  exists c. split; [exact E|]. split; [exact B|].
  rewrite Z.mul_0_l, Z.add_0_l in G. exact G.
Qed.

Lemma is_crc24q_unique data r1 r2 : is_crc24q data r1 -> is_crc24q data r2 -> r1 = r2.
Proof.
  intros [B1 G1] [B2 G2].
  pose proof (gen_divides_lxor _ _ G1 G2) as G.
  set (M := uval (bits_of data) * 2 ^ 24) in *.
  replace (Z.lxor (Z.lxor M r1) (Z.lxor M r2)) with (Z.lxor r1 r2) in G.
  - apply gen_divides_small in G.
    + now apply Z.lxor_eq in G.
    + apply (lxor_bound r1 r2 24); lia.
  - apply Z.bits_inj'; intros i Hi; rewrite !Z.lxor_spec.
    destruct (Z.testbit M i), (Z.testbit r1 i), (Z.testbit r2 i); reflexivity.
Qed.

Lemma crc_calc_iff data r : bytes_ok data -> (crc_calc data = Ok r <-> is_crc24q data r).
Proof.
  intros Hb. destruct (crc_calc_correct data Hb) as (c & E & S). split; intros H.
  - congruence.
  - rewrite E. f_equal. eapply is_crc24q_unique; eauto.
Qed.

(** ** Codewords: byte strings data ++ crc *)
Lemma add_lxor_shift m r : 0 <= r < 2 ^ 24 -> m * 2 ^ 24 + r = Z.lxor (m * 2 ^ 24) r.
Proof.
  intros Hr. apply Z.add_nocarry_lxor. apply Z.bits_inj'. intros i Hi.
  rewrite Z.land_spec, Z.bits_0. destruct (Z.ltb_spec i 24).
  - rewrite Z.mul_pow2_bits_low by lia. reflexivity.
  - destruct (Z.eq_dec r 0) as [->|]; [now rewrite Z.bits_0, andb_false_r|].
    rewrite (Z.bits_above_log2 r); [now rewrite andb_false_r|lia|].
    assert (Z.log2 r < 24) by (apply Z.log2_lt_pow2; lia). lia.
Qed.

Lemma codeword_iff data c : bytes_ok data -> bytes_ok c -> length c = 3%nat ->
  (is_crc24q data (uval (bits_of c)) <-> gen_divides (uval (bits_of (data ++ c)))).
Proof.
  intros Hd Hc Hl.
  pose proof (uval_bound (bits_of c)) as B. rewrite zlen_bits_of in B.
  assert (Hz : zlen c = 3) by (unfold zlen; lia). rewrite Hz in B. change (8 * 3) with 24 in B.
  rewrite bits_of_app, uval_app, zlen_bits_of, Hz. change (8 * 3) with 24.
  rewrite add_lxor_shift by exact B. unfold is_crc24q. tauto.
Qed.

(** ** Differences *)
Lemma xor_bits_length a b : length a = length b -> length (xor_bits a b) = length a.
Proof.
  revert b; induction a as [|x a IH]; intros [|y b] H; cbn [xor_bits length] in *; try lia.
  now rewrite IH by lia.
Qed.

Lemma uval_cons_lxor b l : uval (b :: l) = Z.lxor (if b then 2 ^ zlen l else 0) (uval l).
Proof.
  cbn [uval]. pose proof (uval_bound l). pose proof (zlen_nonneg l). destruct b.
  - rewrite Z.lxor_comm, lxor_pow2_clear by lia. lia.
  - now rewrite Z.lxor_0_l.
Qed.

Lemma uval_xor_bits a : forall b, length a = length b ->
  uval (xor_bits a b) = Z.lxor (uval a) (uval b).
Proof.
  induction a as [|x a IH]; intros [|y b] H; cbn [length] in H; try lia; [reflexivity|].
  cbn [xor_bits]. rewrite !uval_cons_lxor.
  rewrite IH by lia.
  assert (L : zlen (xor_bits a b) = zlen a) by (unfold zlen; rewrite xor_bits_length; lia).
  assert (L2 : zlen b = zlen a) by (unfold zlen; lia).
  rewrite L, L2. set (P := 2 ^ zlen a). generalize (uval a) (uval b). intros U V.
  destruct x, y; cbn [xorb]; rewrite ?Z.lxor_0_l.
  - apply Z.bits_inj'; intros i Hi; rewrite !Z.lxor_spec.
    destruct (Z.testbit P i), (Z.testbit U i), (Z.testbit V i); reflexivity.
  - now rewrite Z.lxor_assoc.
  - apply Z.bits_inj'; intros i Hi; rewrite !Z.lxor_spec.
    destruct (Z.testbit P i), (Z.testbit U i), (Z.testbit V i); reflexivity.
  - reflexivity.
Qed.

(** ** Odd-weight errors: x+1 divides the generator *)
Fixpoint ppar (p : positive) : bool :=
  match p with xH => true | xO p' => ppar p' | xI p' => negb (ppar p') end.
Definition npar (n : N) : bool := match n with N0 => false | Npos p => ppar p end.
Definition zpar (z : Z) : bool := match z with Zpos p => ppar p | _ => false end.

Lemma npar_double n : npar (Pos.Ndouble n) = npar n.
Proof. destruct n; reflexivity. Qed.
Lemma npar_succ_double n : npar (Pos.Nsucc_double n) = negb (npar n).
Proof. destruct n; reflexivity. Qed.

Lemma ppar_lxor a : forall b, npar (Pos.lxor a b) = xorb (ppar a) (ppar b).
Proof.
  induction a as [a IH|a IH|]; intros [b|b|]; cbn [Pos.lxor ppar];
    rewrite ?npar_double, ?npar_succ_double, ?IH; cbn [npar ppar];
    destruct (ppar a) || idtac; try destruct (ppar b); reflexivity.
Qed.

Lemma zpar_lxor a b : 0 <= a -> 0 <= b -> zpar (Z.lxor a b) = xorb (zpar a) (zpar b).
Proof.
  intros Ha Hb. destruct a as [|a|a]; destruct b as [|b|b]; try lia; cbn [Z.lxor zpar].
  - reflexivity.
  - now rewrite xorb_false_l.
  - now rewrite xorb_false_r.
  - rewrite <- ppar_lxor. destruct (Pos.lxor a b); reflexivity.
Qed.

Lemma zpar_double a : zpar (Z.shiftl a 1) = zpar a.
Proof. destruct a as [|a|a]; reflexivity. Qed.

Lemma zpar_clmul a c : 0 <= a -> zpar (clmul a c) = zpar a && ppar c.
Proof.
  intros Ha. induction c as [c IH|c IH|]; cbn [clmul ppar].
  - rewrite zpar_lxor, zpar_double, IH; [|lia|apply Z.shiftl_nonneg, clmul_nonneg, Ha].
    now destruct (zpar a), (ppar c).
  - now rewrite zpar_double, IH.
  - now rewrite andb_true_r.
Qed.

Lemma zpar_pow2 n : 0 <= n -> zpar (2 ^ n) = true.
Proof.
  revert n; refine (natlike_ind _ _ _); [reflexivity|].
  intros n Hn IH. rewrite Z.pow_succ_r by lia.
  replace (2 * 2 ^ n) with (Z.shiftl (2 ^ n) 1) by (rewrite Z.shiftl_mul_pow2 by lia; lia).
  now rewrite zpar_double.
Qed.

Lemma zpar_uval l : zpar (uval l) = Nat.odd (weight l).
Proof.
  induction l as [|b l IH]; [reflexivity|].
  rewrite uval_cons_lxor. pose proof (uval_bound l). pose proof (zlen_nonneg l).
  rewrite zpar_lxor; [|destruct b; lia|lia].
  rewrite IH. unfold weight. cbn [filter]. destruct b.
  - rewrite zpar_pow2 by lia. cbn [length]. rewrite Nat.odd_succ, <- Nat.negb_odd.
    now rewrite xorb_true_l.
  - cbn [zpar]. now rewrite xorb_false_l.
Qed.

Lemma odd_not_divides e : Nat.odd (weight e) = true -> ~ gen_divides (uval e).
Proof.
  intros Ho (q & Hq & Eq). rewrite <- zpar_uval, <- Eq in Ho.
  rewrite zpar_clmul in Ho by assumption.
  change (ppar crc24q_gen) with false in Ho. rewrite andb_false_r in Ho. discriminate.
Qed.

(** ** Burst errors *)
Lemma uval_repeat_false n : uval (repeat false n) = 0.
Proof. induction n; cbn [repeat uval]; lia. Qed.

Lemma uval_zero_weight l : uval l = 0 -> weight l = 0%nat.
Proof.
  unfold weight. induction l as [|b l IH]; [reflexivity|].
  cbn [uval filter]. pose proof (uval_bound l). pose proof (zlen_nonneg l).
  destruct b; intros Hz0; [lia|]. apply IH. lia.
Qed.

Lemma weight_app a b : weight (a ++ b) = (weight a + weight b)%nat.
Proof. unfold weight. now rewrite filter_app, app_length. Qed.
Lemma weight_repeat_false n : weight (repeat false n) = 0%nat.
Proof. unfold weight; induction n; cbn [repeat filter length]; auto. Qed.

Lemma burst_not_divides e : burst 24 e -> weight e <> 0%nat -> ~ gen_divides (uval e).
Proof.
  intros (a & b & c & -> & Hl) Hw HG.
  rewrite !uval_app, uval_repeat_false in HG. rewrite uval_repeat_false in HG.
  rewrite Z.mul_0_l, Z.add_0_l, Z.add_0_r in HG.
  rewrite <- Z.shiftl_mul_pow2 in HG by apply zlen_nonneg.
  pose proof (uval_bound b) as B.
  apply gen_divides_cancel in HG; [|apply zlen_nonneg|lia].
  apply gen_divides_small in HG.
  - apply uval_zero_weight in HG. rewrite !weight_app, !weight_repeat_false in Hw. lia.
  - apply Z.lt_le_trans with (1 := proj2 B). apply Z.pow_le_mono_r; unfold zlen; lia.
Qed.

(** ** Double-bit errors: x^k <> 1 for 0 < k < 8232 *)
Definition xtimes (r : Z) : Z :=
  let s := Z.shiftl r 1 in if Z.testbit s 24 then Z.lxor s (Z.pos crc24q_gen) else s.

Fixpoint no_one (n : nat) (r : Z) : bool :=
  match n with
  | O => true
  | S n' => let r' := xtimes r in negb (r' =? 1) && no_one n' r'
  end.

Lemma xtimes_ok r : 0 <= r < 2 ^ 24 -> 0 <= xtimes r < 2 ^ 24 /\ gen_divides (Z.lxor (Z.shiftl r 1) (xtimes r)).
Proof.
  intros Hr. unfold xtimes. set (s := Z.shiftl r 1).
  assert (Hs : 0 <= s < 2 ^ 25).
  { unfold s. rewrite Z.shiftl_mul_pow2 by lia. lia. }
  destruct (Z.testbit s 24) eqn:E.
  - split.
    + split; [apply Z.lxor_nonneg; lia|].
      set (v := Z.lxor s (Z.pos crc24q_gen)).
      assert (Hv : 0 <= v < 2 ^ 25) by (apply (lxor_bound _ _ 25); unfold crc24q_gen; lia).
      assert (Hb : Z.testbit v 24 = false).
      { unfold v. rewrite Z.lxor_spec, E. reflexivity. }
      apply Z.testbit_false in Hb; [|lia]. lia.
    + replace (Z.lxor s (Z.lxor s (Z.pos crc24q_gen))) with (Z.pos crc24q_gen).
      * exists 1. split; [lia|vm_compute; reflexivity].
      * rewrite <- Z.lxor_assoc, Z.lxor_nilpotent. now rewrite Z.lxor_0_l.
  - split.
    + apply Z.testbit_false in E; [|lia]. lia.
    + rewrite Z.lxor_nilpotent. apply gen_divides_0.
Qed.

Lemma no_one_sound n : forall r k, 0 <= k -> 0 <= r < 2 ^ 24 ->
  gen_divides (Z.lxor (2 ^ k) r) -> no_one n r = true ->
  forall j, k < j <= k + Z.of_nat n -> ~ gen_divides (Z.lxor (2 ^ j) 1).
Proof.
  induction n as [|n IH]; intros r k Hk Hr HG Hn j Hj; [lia|].
  cbn [no_one] in Hn. apply andb_prop in Hn as [H1 H2].
  destruct (xtimes_ok r Hr) as [B D].
  assert (HG' : gen_divides (Z.lxor (2 ^ (k + 1)) (xtimes r))).
  { pose proof (gen_divides_shiftl _ 1 ltac:(lia) HG) as S.
    rewrite Z.shiftl_lxor in S.
    pose proof (gen_divides_lxor _ _ S D) as T.
    replace (Z.lxor (2 ^ (k + 1)) (xtimes r)) with
      (Z.lxor (Z.lxor (Z.shiftl (2 ^ k) 1) (Z.shiftl r 1)) (Z.lxor (Z.shiftl r 1) (xtimes r)));
      [exact T|].
    replace (2 ^ (k + 1)) with (Z.shiftl (2 ^ k) 1)
      by (rewrite Z.shiftl_mul_pow2, Z.pow_add_r by lia; reflexivity).
    apply Z.bits_inj'; intros i Hi; rewrite !Z.lxor_spec.
    destruct (Z.testbit (Z.shiftl (2 ^ k) 1) i), (Z.testbit (Z.shiftl r 1) i),
      (Z.testbit (xtimes r) i); reflexivity. }
  destruct (Z.eq_dec j (k + 1)) as [->|Hne].
  - intros HC. pose proof (gen_divides_lxor _ _ HG' HC) as T.
    replace (Z.lxor (Z.lxor (2 ^ (k + 1)) (xtimes r)) (Z.lxor (2 ^ (k + 1)) 1))
      with (Z.lxor (xtimes r) 1) in T.
    + apply gen_divides_small in T; [|apply (lxor_bound _ _ 24); lia].
      apply Z.lxor_eq in T. rewrite T in H1. discriminate.
    + apply Z.bits_inj'; intros i Hi; rewrite !Z.lxor_spec.
      destruct (Z.testbit (2 ^ (k + 1)) i), (Z.testbit (xtimes r) i), (Z.testbit 1 i); reflexivity.
  - apply (IH (xtimes r) (k + 1)); auto; lia.
Qed.

Lemma two_terms_not_divides j : 0 < j < 8232 -> ~ gen_divides (Z.lxor (2 ^ j) 1).
Proof.
  intros Hj. apply (no_one_sound (Z.to_nat 8231) 1 0); try lia.
  - rewrite Z.pow_0_r, Z.lxor_nilpotent. apply gen_divides_0.
  - vm_compute. reflexivity.
Qed.

Lemma weight_split l n : weight l = S n ->
  exists a r, l = repeat false a ++ true :: r /\ weight r = n.
Proof.
  induction l as [|b l IH]; intros H; [discriminate|].
  destruct b.
  - exists 0%nat, l. split; [reflexivity|]. unfold weight in *. cbn [filter length] in H. lia.
  - destruct (IH H) as (a & r & -> & Hr). exists (S a), r. split; [reflexivity|exact Hr].
Qed.

Lemma weight0 l : weight l = 0%nat -> l = repeat false (length l).
Proof.
  induction l as [|b l IH]; intros H; [reflexivity|].
  destruct b; [discriminate|]. cbn [length repeat]. now rewrite <- IH.
Qed.

Lemma double_not_divides e : weight e = 2%nat -> zlen e <= 8232 -> ~ gen_divides (uval e).
Proof.
  intros Hw Hlen HG.
  destruct (weight_split _ _ Hw) as (a & r & -> & Hr).
  destruct (weight_split _ _ Hr) as (b & s & -> & Hs).
  rewrite (weight0 s Hs) in *. set (n := length s) in *.
  rewrite uval_app, uval_repeat_false in HG. cbn [uval] in HG.
  rewrite uval_app, uval_repeat_false in HG. cbn [uval] in HG.
  rewrite uval_repeat_false in HG.
  assert (Z1 : zlen (repeat false n) = Z.of_nat n) by (unfold zlen; now rewrite repeat_length).
  assert (Z2 : zlen (repeat false b ++ true :: repeat false n) = Z.of_nat (b + 1 + n)).
  { unfold zlen. rewrite app_length, repeat_length. cbn [length]. rewrite repeat_length. lia. }
  rewrite Z1, Z2 in HG.
  rewrite !zlen_app, zlen_cons, zlen_app, zlen_cons in Hlen.
  unfold zlen in Hlen. rewrite !repeat_length in Hlen.
  replace (0 * _ + (2 ^ Z.of_nat (b + 1 + n) + (0 * _ + (2 ^ Z.of_nat n + 0))))
    with (Z.shiftl (Z.lxor (2 ^ Z.of_nat (b + 1)) 1) (Z.of_nat n)) in HG.
  - apply gen_divides_cancel in HG; [|lia|apply Z.lxor_nonneg; lia].
    revert HG. apply two_terms_not_divides. lia.
  - pose proof (Z.pow_le_mono_r 2 1 (Z.of_nat (b + 1)) ltac:(lia) ltac:(lia)) as P2.
    rewrite (Z.lxor_comm _ 1), lxor_pow2_clear, Z.shiftl_mul_pow2 by lia.
    rewrite Z.mul_add_distr_r, <- Z.pow_add_r by lia.
    replace (Z.of_nat (b + 1) + Z.of_nat n) with (Z.of_nat (b + 1 + n)) by lia. lia.
Qed.
