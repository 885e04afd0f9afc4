(** * EphTheorems: decoding, scaling and rejection of ephemeris messages. *)
From Coq Require Import Reals Lra.
From Flocq Require Import Core Relative.
From Verif Require Import PyBase PyDict PyFloat PyVal BitsModel BitsSpec BitsProofs MessageSpec
  ReadProofs CleanProofs FloatProofs EphModel EphSpec EphProofs.
Local Open Scope string_scope.
Local Open Scope list_scope.
Local Open Scope Z_scope.

Lemma sub_some bare buf r : eph_decode bare buf = Ok r ->
  subdecoder_eph bare buf = Ok (Some r).
Proof.
  intros H. unfold subdecoder_eph. pose proof H as H'. unfold eph_decode, eph_decode_bare in H'.
  destruct (eph_get_msg_num buf); [|discriminate]. cbn [bind]. now rewrite H.
Qed.

Lemma sub_none bare buf e : (_ <- eph_get_msg_num buf ;; eph_decode bare buf) = Err e ->
  is_exception e = true -> subdecoder_eph bare buf = Ok None.
Proof. intros H E. unfold subdecoder_eph. now rewrite H, E. Qed.

Lemma sub_inv bare buf r : subdecoder_eph bare buf = Ok (Some r) -> eph_decode bare buf = Ok r.
Proof.
  unfold subdecoder_eph. intros H. destruct (eph_get_msg_num buf); cbn [bind] in H.
  - destruct (eph_decode bare buf) as [o|e]; [congruence|]. destruct (is_exception e); discriminate.
  - destruct (is_exception e); discriminate.
Qed.

(** Errors of the bare decoder make both modes return None. *)
Lemma sub_bare_err bare buf e : eph_decode_bare buf = Err e -> is_exception e = true ->
  subdecoder_eph bare buf = Ok None.
Proof.
  intros H E. unfold subdecoder_eph, eph_decode. rewrite H. cbn [bind].
  destruct (eph_get_msg_num buf) as [n|e'] eqn:EN; cbn [bind]; [now rewrite E|].
  unfold eph_decode_bare in H. rewrite EN in H. cbn [bind] in H. inversion H; subst. now rewrite E.
Qed.

(** ** Bare decoding *)
Theorem eph_bare_ok buf payload crc t : t <> E1044 -> transport_frame buf payload crc ->
  announces payload t -> eph_bytes t <= zlen payload ->
  exists o, subdecoder_eph true buf = Ok (Some o) /\
    has_exactly o (eph_class t)
      (map (fun '(n, v) => (n, VInt v)) (fields_of (layout t) (bits_of payload))).
Proof.
  intros NT F (L2 & AN) L. exists (assign (new_eph (eph_class t)) (bare_attrs t payload)). split.
  - apply sub_some. unfold eph_decode.
    rewrite (decode_bare_type buf t) by (rewrite (msg_num_payload _ _ _ F L2), AN; reflexivity).
    now rewrite (run_decoder_ok _ _ _ _ NT F L).
  - change (has_exactly (assign (new_eph (eph_class t)) (bare_attrs t payload))
              (po_class (new_eph (eph_class t))) (bare_attrs t payload)).
    apply assign_exactly; rewrite ?new_eph_keys, ?bare_attrs_keys.
    + apply class_fields_nodup.
    + apply names_nodup.
    + apply class_fields_in.
Qed.

Lemma eph_bytes_big t : 2 <= eph_bytes t.
Proof. destruct t; vm_compute; congruence. Qed.

(** What the bare decoder returns, if anything. *)
Lemma eph_bare_inv buf payload crc o : transport_frame buf payload crc ->
  eph_decode_bare buf = Ok o ->
  exists t, t <> E1044 /\ announces payload t /\ eph_bytes t <= zlen payload /\
    o = assign (new_eph (eph_class t)) (bare_attrs t payload).
Proof.
  intros F H. pose proof (frame_at _ _ _ F) as (_ & _ & LB & BO).
  assert (HN : exists n, eph_get_msg_num buf = Ok n).
  { unfold eph_decode_bare in H. apply bind_ok in H. destruct H as (n & H & _). eauto. }
  destruct HN as (n & HN).
  destruct (eph_number_dec n) as [(t & ->)|N];
    [|rewrite (decode_bare_other _ _ HN N) in H; discriminate].
  rewrite (decode_bare_type _ _ HN) in H.
  destruct (Z_lt_le_dec (zlen buf) (6 + eph_bytes t)) as [S|S].
  { destruct (run_decoder_short _ _ S) as (e & E & _). congruence. }
  assert (NT : t <> E1044).
  { intros ->. destruct (run_decoder_1044 buf) as (e & E & _). congruence. }
  assert (L : eph_bytes t <= zlen payload) by lia.
  assert (L2 : 2 <= zlen payload) by (pose proof (eph_bytes_big t); lia).
  exists t. split; [exact NT|]. split; [|split; [exact L|]].
  - split; [exact L2|]. pose proof (msg_num_payload _ _ _ F L2) as M. congruence.
  - rewrite (run_decoder_ok _ _ _ _ NT F L) in H. congruence.
Qed.

(** ** Scaling *)
Definition in_unit (u : punit) (v : Z) : pyval :=
  match u with
  | Same => VInt v
  | TwoPow k => VFloat (f_mul (f_of_int v) (f_pow2 (- k)))
  | Times n => VInt (v * n)
  | Decimal m k => VFloat (f_mul (f_of_int v) (dec_lit m k))
  | Minus n => VInt (v - n)
  | TimeOfDay => VInt (3600 * (v / 128) + 60 * ((v / 2) mod 64) + 30 * (v mod 2))
  end.

Definition unit_matches (s : scaler) (u : punit) : bool :=
  match s, u with
  | SCopy, Same => true
  | SPow2 a, TwoPow b => a =? b
  | SMul a, Times b => a =? b
  | SDec a b, Decimal c d => (a =? c) && (b =? d)
  | STb, Times n => n =? 900
  | SSub a, Minus b => a =? b
  | STk, TimeOfDay => true
  | _, _ => false
  end.

Lemma apply_unit s u v : unit_matches s u = true -> (u = TimeOfDay -> 0 <= v < 4096) ->
  apply_scaler s (VInt v) = Ok (in_unit u v).
Proof.
  intros H R. destruct s, u; cbn [unit_matches] in H; try discriminate; cbn [apply_scaler in_unit].
  - reflexivity.
  - apply Z.eqb_eq in H. now subst.
  - apply Z.eqb_eq in H. now subst.
  - apply andb_true_iff in H. destruct H as [H1 H2]. apply Z.eqb_eq in H1, H2. now subst.
  - apply Z.eqb_eq in H. subst. do 2 f_equal. lia.
  - apply Z.eqb_eq in H. now subst.
  - specialize (R eq_refl). do 2 f_equal.
    rewrite !Z.shiftr_div_pow2 by lia. change (2 ^ 7) with 128. change (2 ^ 1) with 2.
    change 0x1F with (Z.ones 5). change 0x3F with (Z.ones 6). change 0x01 with (Z.ones 1).
    rewrite !Z.land_ones by lia. change (2 ^ 1) with 2. change (2 ^ 5) with 32. change (2 ^ 6) with 64.
    change (2 ^ Z.ones 1) with 2.
    rewrite (Z.mod_small (v / 128) 32) by lia. reflexivity.
Qed.

Lemma scalers_units t : forallb (fun '(n, s) => unit_matches s (unit_of t n)) (scalers_of t) = true.
Proof. destruct t; vm_compute; reflexivity. Qed.
Lemma scalers_names t : inclb (map fst (scalers_of t)) (names (layout t)) &&
  inclb (names (layout t)) (map fst (scalers_of t)) && nodupb (map fst (scalers_of t)) = true.
Proof. destruct t; vm_compute; reflexivity. Qed.

(** The field holding a time of day is 12 bits wide and unsigned; power-of-two units are used
    for fields of at most 32 bits. *)
Definition field_shape (t : eph_msg) (p : string * ftype * Z * Z) : bool :=
  let '(n, ty, o, w) := p in
  match unit_of t n, ty with
  | TimeOfDay, U => w =? 12
  | TimeOfDay, _ => false
  | TwoPow k, _ => (w <=? 32) && (0 <=? k) && (k <=? 100)
  | Decimal m k, I => (w =? 10) && (m =? 1) && (k =? 10)
  | Decimal m k, _ => false
  | _, _ => w <=? 64
  end.
Lemma field_shapes t : forallb (field_shape t) (placed (layout t) 0) = true.
Proof. destruct t; vm_compute; reflexivity. Qed.

(** A value of field [n] of message [t] lies in the range of the field. *)
Definition in_range (ty : ftype) (w v : Z) : Prop :=
  match ty with U => 0 <= v < 2 ^ w | I => - 2 ^ (w - 1) <= v < 2 ^ (w - 1)
              | SM => Z.abs v < 2 ^ (w - 1) end.

Lemma field_value_range ty bits : bits <> [] -> in_range ty (zlen bits) (field_value ty bits).
Proof.
  intros NE. destruct bits as [|b l]; [congruence|]. pose proof (uval_bound l) as B.
  pose proof (zlen_nonneg l).
  assert (E : 2 ^ zlen (b :: l) = 2 * 2 ^ zlen l).
  { rewrite zlen_cons, Z.pow_add_r by lia. lia. }
  assert (E1 : zlen (b :: l) - 1 = zlen l) by (rewrite zlen_cons; lia).
  destruct ty; cbn [in_range field_value uval sval smval]; rewrite ?E, ?E1; destruct b; lia.
Qed.

Lemma field_inst t bits n v : layout_width (layout t) <= zlen bits ->
  In (n, v) (fields_of (layout t) bits) ->
  exists ty o w, In (n, ty, o, w) (placed (layout t) 0) /\ in_range ty w v.
Proof.
  intros L HI. change bits with (skipn (Z.to_nat 0) bits) in HI.
  rewrite fields_of_placed in HI by lia. apply in_map_iff in HI.
  destruct HI as ([[[n' ty] o] w] & E & HI). exists ty, o, w.
  cbn [at_place] in E. inversion E; subst. split; [exact HI|].
  pose proof (layout_inside t) as LI. rewrite forallb_forall in LI. specialize (LI _ HI).
  unfold place_inside in LI. cbv beta iota zeta in LI.
  assert (LE : zlen (firstn (Z.to_nat w) (skipn (Z.to_nat o) bits)) = w).
  { unfold zlen in *. rewrite firstn_length, skipn_length. lia. }
  assert (NE : firstn (Z.to_nat w) (skipn (Z.to_nat o) bits) <> []).
  { intros X. rewrite X in LE. change (zlen (@nil bool)) with 0 in LE. lia. }
  pose proof (field_value_range ty _ NE) as R. now rewrite LE in R.
Qed.

Lemma shape_inst t n ty o w : In (n, ty, o, w) (placed (layout t) 0) -> field_shape t (n, ty, o, w) = true.
Proof. pose proof (field_shapes t) as F. rewrite forallb_forall in F. apply F. Qed.

Definition zero_default (l : list (string * Z)) (n : string) : Z :=
  match sget l n with Some v => v | None => 0 end.

Definition scaled_attrs (t : eph_msg) (payload : list Z) : list (string * pyval) :=
  map (fun '(n, s) => (n, in_unit (unit_of t n)
                            (zero_default (fields_of (layout t) (bits_of payload)) n))) (scalers_of t).

Lemma run_scalers_ok f l ie : forall eph,
  (forall n s, In (n, s) l -> exists v, eph_getattr ie n = Ok v /\ apply_scaler s v = Ok (f n)) ->
  run_scalers l ie eph = Ok (assign eph (map (fun '(n, s) => (n, f n)) l)).
Proof.
  unfold run_scalers. induction l as [|[n s] l IH]; intros eph H; [reflexivity|].
  cbn [for_each]. destruct (H n s (or_introl eq_refl)) as (v & E1 & E2).
  rewrite E1. cbn [bind]. rewrite E2. cbn [bind]. rewrite IH; [reflexivity|].
  intros n' s' HI. apply H. now right.
Qed.

Lemma eph_scale_type o t : po_class o = eph_class t ->
  eph_scale o = run_scalers (scalers_of t) o (new_eph (eph_class t)).
Proof. intros E. unfold eph_scale. rewrite E. destruct t; reflexivity. Qed.

Lemma names_get t payload n : In n (names (layout t)) ->
  sget (bare_attrs t payload) n
  = Some (VInt (zero_default (fields_of (layout t) (bits_of payload)) n)).
Proof.
  intros HI. rewrite <- (fields_names _ (bits_of payload)) in HI.
  apply in_map_iff in HI. destruct HI as ([n' v] & E & HI). cbn in E. subst n'.
  pose proof (names_nodup t) as ND.
  unfold zero_default, sget. rewrite (In_dget String.eqb string_eqb_spec _ n v);
    [|rewrite fields_names; exact ND|exact HI].
  apply In_dget; [apply string_eqb_spec| |].
  - rewrite bare_attrs_keys. exact ND.
  - unfold bare_attrs. apply in_map_iff. now exists (n, v).
Qed.

Lemma scale_ok t payload : layout_width (layout t) <= 8 * zlen payload ->
  eph_scale (assign (new_eph (eph_class t)) (bare_attrs t payload))
  = Ok (assign (new_eph (eph_class t)) (scaled_attrs t payload)).
Proof.
  intros L. rewrite (eph_scale_type _ t) by (rewrite assign_class; reflexivity).
  pose proof (scalers_names t) as SN. apply andb_true_iff in SN. destruct SN as [SN _].
  apply andb_true_iff in SN. destruct SN as [SN _]. apply inclb_ok in SN.
  apply (run_scalers_ok (fun n => in_unit (unit_of t n)
           (zero_default (fields_of (layout t) (bits_of payload)) n))).
  intros n s HI. assert (HN : In n (names (layout t))).
  { apply SN. apply (in_map fst) in HI. exact HI. }
  exists (VInt (zero_default (fields_of (layout t) (bits_of payload)) n)). split.
  - unfold eph_getattr. rewrite assign_get by (rewrite bare_attrs_keys; apply names_nodup).
    now rewrite names_get.
  - pose proof (scalers_units t) as SU. rewrite forallb_forall in SU. specialize (SU _ HI).
    cbv beta iota zeta in SU. apply apply_unit; [exact SU|]. intros EU.
    rewrite <- (fields_names _ (bits_of payload)) in HN. apply in_map_iff in HN.
    destruct HN as ([n' v] & E & HN). cbn in E. subst n'.
    unfold zero_default, sget. rewrite (In_dget String.eqb string_eqb_spec _ n v);
      [|rewrite fields_names; apply names_nodup|exact HN].
    destruct (field_inst t (bits_of payload) n v) as (ty & o & w & HP & R);
      [rewrite zlen_bits_of; exact L|exact HN|].
    pose proof (shape_inst _ _ _ _ _ HP) as FS. unfold field_shape in FS.
    cbv beta iota zeta in FS. rewrite EU in FS. destruct ty; try discriminate.
    apply Z.eqb_eq in FS. subst w. exact R.
Qed.

(** ** Values *)
Lemma pow2_reports v k : Z.abs v < 2 ^ 53 -> 0 <= k <= 100 ->
  is_val (f_mul (f_of_int v) (f_pow2 (- k))) (IZR v * bpow radix2 (- k)).
Proof.
  intros V K. pose proof (mul_exact _ _ v 1 0 (- k) (f_of_int_exact v V) (f_pow2_exact (- k) ltac:(lia))) as E.
  rewrite Z.mul_1_r in E. apply E; lia.
Qed.

Lemma pow2_53_abs ty w v : w <= 32 -> 1 <= w -> in_range ty w v -> Z.abs v < 2 ^ 53.
Proof.
  intros W W1 R. assert (P : 2 ^ w <= 2 ^ 32) by (apply Z.pow_le_mono_r; lia).
  assert (P1 : 2 ^ (w - 1) <= 2 ^ 32) by (apply Z.pow_le_mono_r; lia).
  destruct ty; cbn [in_range] in R; lia.
Qed.

Lemma rel_error r : (bpow radix2 (-1022) <= Rabs r)%R ->
  (Rabs (rnd r - r) <= bpow radix2 (-53) * Rabs r)%R.
Proof.
  intros H. unfold rnd.
  pose proof (relative_error_N_FLT radix2 (-1074) 53 ltac:(reflexivity) (fun z => negb (Z.even z)) r H) as E.
  change (SpecFloat.fexp fprec femax) with (FLT_exp (-1074) 53).
  eapply Rle_trans; [exact E|]. apply Rmult_le_compat_r; [apply Rabs_pos|].
  change (- (53) + 1) with (-52).
  replace (bpow radix2 (-52)) with (2 * bpow radix2 (-53))%R.
  - lra.
  - change (-52) with (1 + -53). rewrite bpow_plus. reflexivity.
Qed.

Lemma dec_reports m k v : 0 < m -> 0 <= k -> 2 * m <= 10 ^ k -> 10 ^ k <= 2 ^ 40 -> Z.abs v <= 2 ^ 40 ->
  exists r, is_val (f_mul (f_of_int v) (dec_lit m k)) r /\
    (Rabs (r - IZR v * (IZR m / IZR (10 ^ k))) <= bpow radix2 (-51) * Rabs (IZR v * (IZR m / IZR (10 ^ k))))%R.
Proof.
  intros M K M2 K40 V. set (c := (IZR m / IZR (10 ^ k))%R).
  set (d := 10 ^ k) in *. assert (D0 : (0 < IZR d)%R) by (apply IZR_lt; lia).
  assert (C1 : (c <= / 2)%R).
  { unfold c. apply Rmult_le_reg_r with (IZR d); [exact D0|]. unfold Rdiv.
    rewrite Rmult_assoc, Rinv_l by lra. assert (IZR (2 * m) <= IZR d)%R by (apply IZR_le; lia).
    rewrite mult_IZR in H. lra. }
  assert (B22 : (bpow radix2 (-40) <= c)%R).
  { unfold c. change (bpow radix2 (-40)) with (/ IZR (2 ^ 40))%R.
    apply Rmult_le_reg_r with (IZR d); [exact D0|]. unfold Rdiv.
    rewrite Rmult_assoc, Rinv_l by lra. rewrite Rmult_1_r.
    assert (IZR d <= IZR (2 ^ 40))%R by (apply IZR_le; lia).
    assert (1 <= IZR m)%R by (apply IZR_le; lia).
    assert (0 < IZR (2 ^ 40))%R by (apply IZR_lt; lia).
    apply Rle_trans with 1%R; [|assumption].
    apply Rmult_le_reg_l with (IZR (2 ^ 40)); [assumption|].
    rewrite <- Rmult_assoc, Rinv_r by lra. lra. }
  assert (B0 : (bpow radix2 (-1022) <= bpow radix2 (-40))%R) by (apply bpow_le; lia).
  assert (P : (0 < bpow radix2 (-1022))%R) by apply bpow_gt_0.
  assert (H53 : (bpow radix2 (-53) = / 9007199254740992)%R) by reflexivity.
  assert (H51 : (bpow radix2 (-51) = 4 * bpow radix2 (-53))%R).
  { change (-51) with (2 + -53). rewrite bpow_plus. change (bpow radix2 2) with 4%R. reflexivity. }
  assert (RC : (Rabs (rnd c - c) <= bpow radix2 (-53) * Rabs c)%R).
  { apply rel_error. rewrite (Rabs_pos_eq c) by lra. lra. }
  rewrite (Rabs_pos_eq c) in RC by lra.
  assert (LC : (c / 2 <= rnd c <= 2 * c)%R).
  { apply Rabs_le_inv in RC. rewrite H53 in RC. lra. }
  assert (LV : is_val (dec_lit m k) (rnd c)).
  { unfold dec_lit.
    pose proof (f_of_int_exact m ltac:(lia)) as E1. pose proof (f_of_int_exact d ltac:(lia)) as E2.
    unfold dyadic in E1, E2. change (bpow radix2 0) with 1%R in E1, E2. rewrite Rmult_1_r in E1, E2.
    unfold c. apply div_val; [exact E1|exact E2| |].
    - apply IZR_neq. lia.
    - fold c. unfold small. rewrite Rabs_pos_eq by lra.
      apply Rle_lt_trans with 1%R; [lra|].
      change 1%R with (bpow radix2 0). apply bpow_lt. reflexivity. }
  pose proof (f_of_int_exact v ltac:(lia)) as EV. unfold dyadic in EV.
  change (bpow radix2 0) with 1%R in EV. rewrite Rmult_1_r in EV.
  assert (VB : (Rabs (IZR v) <= 1099511627776)%R) by (rewrite <- abs_IZR; apply IZR_le; lia).
  exists (rnd (IZR v * rnd c)).
  assert (RV : (Rabs (rnd (IZR v * rnd c) - IZR v * rnd c) <= bpow radix2 (-53) * Rabs (IZR v * rnd c))%R).
  { destruct (Z.eq_dec v 0) as [->|NZ].
    - rewrite Rmult_0_l. unfold rnd. rewrite round_0 by auto with typeclass_instances.
      rewrite Rminus_0_r, Rabs_R0. lra.
    - apply rel_error. rewrite Rabs_mult, (Rabs_pos_eq (rnd c)) by lra.
      assert (1 <= Rabs (IZR v))%R by (rewrite <- abs_IZR; apply IZR_le; lia).
      assert (bpow radix2 (-1022) <= bpow radix2 (-41))%R by (apply bpow_le; lia).
      assert (bpow radix2 (-40) = 2 * bpow radix2 (-41))%R
        by (change (-40) with (1 + -41); rewrite bpow_plus; reflexivity).
      nra. }
  rewrite Rabs_mult, (Rabs_pos_eq (rnd c)) in RV by lra. pose proof (Rabs_pos (IZR v)) as V0.
  split.
  - apply mul_val; [exact EV|exact LV|]. unfold small.
    apply Rle_lt_trans with (bpow radix2 42).
    + replace (rnd (IZR v * rnd c))%R with ((rnd (IZR v * rnd c) - IZR v * rnd c) + IZR v * rnd c)%R by lra.
      eapply Rle_trans; [apply Rabs_triang|]. rewrite (Rabs_mult (IZR v)), (Rabs_pos_eq (rnd c)) by lra.
      assert (Rabs (IZR v) * rnd c <= 1099511627776)%R by nra.
      rewrite H53 in RV. change (bpow radix2 42) with 4398046511104%R. lra.
    + apply bpow_lt. reflexivity.
  - replace (rnd (IZR v * rnd c) - IZR v * c)%R
      with ((rnd (IZR v * rnd c) - IZR v * rnd c) + IZR v * (rnd c - c))%R by lra.
    eapply Rle_trans; [apply Rabs_triang|]. rewrite (Rabs_mult (IZR v) (rnd c - c)).
    rewrite (Rabs_mult (IZR v) c), (Rabs_pos_eq c) by lra. rewrite H51.
    assert (Rabs (IZR v) * Rabs (rnd c - c) <= Rabs (IZR v) * (bpow radix2 (-53) * c))%R
      by (apply Rmult_le_compat_l; assumption).
    assert (bpow radix2 (-53) * (Rabs (IZR v) * rnd c) <= bpow radix2 (-53) * (Rabs (IZR v) * (2 * c)))%R.
    { apply Rmult_le_compat_l; [apply bpow_ge_0|]. apply Rmult_le_compat_l; lra. }
    nra.
Qed.

Lemma in_unit_reports t bits n v : layout_width (layout t) <= zlen bits ->
  In (n, v) (fields_of (layout t) bits) -> reports (unit_of t n) v (in_unit (unit_of t n) v).
Proof.
  intros L HI. destruct (field_inst t bits n v L HI) as (ty & o & w & HP & R).
  pose proof (shape_inst _ _ _ _ _ HP) as FS. unfold field_shape in FS. cbv beta iota zeta in FS.
  pose proof (layout_inside t) as LI. rewrite forallb_forall in LI. specialize (LI _ HP).
  unfold place_inside in LI. cbv beta iota zeta in LI.
  destruct (unit_of t n) as [|k|m|m k|m|]; cbn [reports in_unit]; try reflexivity.
  - eexists. split; [reflexivity|]. apply pow2_reports; [|lia].
    apply (pow2_53_abs ty w); [lia|lia|exact R].
  - destruct ty; try discriminate. assert (EW : w = 10) by lia. assert (m = 1) by lia.
    assert (k = 10) by lia. subst. cbn [in_range] in R. change (2 ^ (10 - 1)) with 512 in R.
    destruct (dec_reports 1 10 v) as (r & V & B); try lia. eexists. exists r.
    split; [reflexivity|]. split; [exact V|exact B].
Qed.

(** ** Scaled decoding *)
Theorem eph_scaled_ok buf payload crc t : t <> E1044 -> transport_frame buf payload crc ->
  announces payload t -> eph_bytes t <= zlen payload ->
  exists o, subdecoder_eph false buf = Ok (Some o) /\
    po_class o = eph_class t /\ NoDup (map fst (po_attrs o)) /\
    (forall n, In n (map fst (po_attrs o)) <-> In n (map fst (fields_of (layout t) (bits_of payload)))) /\
    (forall n v, In (n, v) (fields_of (layout t) (bits_of payload)) ->
       exists p, In (n, p) (po_attrs o) /\ reports (unit_of t n) v p).
Proof.
  intros NT F (L2 & AN) L. exists (assign (new_eph (eph_class t)) (scaled_attrs t payload)).
  pose proof L as LW. apply eph_bytes_spec in LW.
  pose proof (scalers_names t) as SN. apply andb_true_iff in SN. destruct SN as [SN SN3].
  apply andb_true_iff in SN. destruct SN as [SN1 SN2]. apply inclb_ok in SN1, SN2. apply nodupb_ok in SN3.
  assert (K : map fst (scaled_attrs t payload) = map fst (scalers_of t)).
  { unfold scaled_attrs. rewrite map_map. apply map_ext. now intros [n s]. }
  assert (HE : has_exactly (assign (new_eph (eph_class t)) (scaled_attrs t payload))
                 (po_class (new_eph (eph_class t))) (scaled_attrs t payload)).
  { apply assign_exactly; rewrite ?new_eph_keys, ?K; [apply class_fields_nodup|exact SN3|].
    intros x Hx. apply SN2, class_fields_in, Hx. }
  destruct HE as (HC & HN & HA).
  assert (KK : forall n, In n (map fst (po_attrs (assign (new_eph (eph_class t)) (scaled_attrs t payload))))
               <-> In n (map fst (scaled_attrs t payload))).
  { intros n. split; intros HI; apply in_map_iff in HI; destruct HI as ([n' v] & <- & HI);
      apply HA in HI; apply (in_map fst) in HI; exact HI. }
  split; [|split; [|split; [|split]]].
  - apply sub_some. unfold eph_decode.
    rewrite (decode_bare_type buf t) by (rewrite (msg_num_payload _ _ _ F L2), AN; reflexivity).
    rewrite (run_decoder_ok _ _ _ _ NT F L). cbn [bind]. now apply scale_ok.
  - exact HC.
  - exact HN.
  - intros n. rewrite KK, K, fields_names. split; [apply SN1|apply SN2].
  - intros n v HI. exists (in_unit (unit_of t n) v). split.
    + apply HA. unfold scaled_attrs. pose proof HI as HI'. apply (in_map fst) in HI'. cbn [fst] in HI'.
      rewrite fields_names in HI'. apply SN2 in HI'. apply in_map_iff in HI'.
      destruct HI' as ([n' s] & E & HI'). cbn [fst] in E. subst n'. apply in_map_iff.
      exists (n, s). split; [|exact HI'].
      unfold zero_default, sget. rewrite (In_dget String.eqb string_eqb_spec _ n v);
        [reflexivity|rewrite fields_names; apply names_nodup|exact HI].
    + apply (in_unit_reports t (bits_of payload)); [rewrite zlen_bits_of; exact LW|exact HI].
Qed.

(** ** Rejection *)
Lemma clean_eph_scale o : clean (eph_scale o).
Proof.
  assert (R : forall l ie e, clean (run_scalers l ie e)).
  { intros l ie e. unfold run_scalers. apply clean_for_each. intros e' [a s] _.
    apply clean_bind; [|intros v _; apply clean_bind].
    - unfold eph_getattr. destruct (sget (po_attrs ie) a); [exact Logic.I|].
      destruct (String.eqb (po_class ie) "EphNAVIC" && _); exact Logic.I.
    - destruct s, v; exact Logic.I.
    - intros; exact Logic.I. }
  unfold eph_scale. repeat match goal with |- context [if ?b then _ else _] => destruct b end;
    try apply R; exact Logic.I.
Qed.

Lemma clean_bare buf : clean (eph_decode_bare buf).
Proof.
  assert (R : forall c s n b, clean (run_decoder c s n b)).
  { intros. unfold run_decoder. apply clean_bind; [apply clean_run_steps|]. intros [o off] _.
    unfold eph_length_check. destruct (negb _); [exact Logic.I|].
    destruct (_ <? _); exact Logic.I. }
  unfold eph_decode_bare. apply clean_bind; [apply clean_getbitu|]. intros n _.
  repeat match goal with |- context [if ?b then _ else _] => destruct b end;
    try apply R; exact Logic.I.
Qed.

Theorem eph_never_raises bare buf : exists r, subdecoder_eph bare buf = Ok r.
Proof.
  unfold subdecoder_eph.
  assert (C : clean (_ <- eph_get_msg_num buf ;; eph_decode bare buf)).
  { apply clean_bind; [apply clean_getbitu|]. intros n _. unfold eph_decode.
    apply clean_bind; [apply clean_bare|]. intros o _. destruct bare; [exact Logic.I|apply clean_eph_scale]. }
  destruct (_ <- _ ;; _) as [o|e]; [eauto|]. unfold clean in C. destruct e; cbn; eauto; tauto.
Qed.

(** A frame is decoded, in either mode, only if it announces one of the six types and its
    payload is at least as long as the layout. *)
Theorem eph_decoded_iff bare buf payload crc : transport_frame buf payload crc ->
  (exists o, subdecoder_eph bare buf = Ok (Some o)) <->
  (exists t, t <> E1044 /\ announces payload t /\ eph_bytes t <= zlen payload).
Proof.
  intros F. split.
  - intros (o & H). apply sub_inv in H. unfold eph_decode in H. apply bind_ok in H.
    destruct H as (o' & H & _). destruct (eph_bare_inv _ _ _ _ F H) as (t & A & B & D & _). eauto.
  - intros (t & A & B & D). destruct bare.
    + destruct (eph_bare_ok _ _ _ _ A F B D) as (o & H & _). eauto.
    + destruct B as [L2 AN]. eexists. apply sub_some. unfold eph_decode.
      rewrite (decode_bare_type buf t) by (rewrite (msg_num_payload _ _ _ F L2), AN; reflexivity).
      rewrite (run_decoder_ok _ _ _ _ A F D). cbn [bind]. apply scale_ok. now apply eph_bytes_spec.
Qed.

Theorem eph_1044_none bare buf : eph_get_msg_num buf = Ok 1044 -> subdecoder_eph bare buf = Ok None.
Proof.
  intros E. destruct (run_decoder_1044 buf) as (e & H & X).
  apply (sub_bare_err _ _ e); [|exact X]. now rewrite (decode_bare_type buf E1044).
Qed.

(** ** Recovering the transmitted integer *)
Lemma dyadic_inj v v' k : (IZR v * bpow radix2 k = IZR v' * bpow radix2 k)%R -> v = v'.
Proof.
  intros H. apply eq_IZR. apply Rmult_eq_reg_r with (bpow radix2 k); [exact H|].
  apply Rgt_not_eq, bpow_gt_0.
Qed.

Lemma VInt_inj a b : VInt a = VInt b -> a = b.
Proof. congruence. Qed.

Lemma reports_inj t n ty o w v v' p : In (n, ty, o, w) (placed (layout t) 0) ->
  in_range ty w v -> in_range ty w v' ->
  (unit_of t n = TimeOfDay -> (v / 2) mod 64 < 60 /\ (v' / 2) mod 64 < 60) ->
  reports (unit_of t n) v p -> reports (unit_of t n) v' p -> v = v'.
Proof.
  intros HP R R' TD H H'. pose proof (shape_inst _ _ _ _ _ HP) as FS. unfold field_shape in FS.
  cbv beta iota zeta in FS.
  destruct (unit_of t n) as [|k|m|m k|m|] eqn:EU; cbn [reports] in H, H'.
  - congruence.
  - destruct H as (x & -> & V), H' as (x' & E & V'). inversion E; subst x'.
    apply (dyadic_inj v v' (- k)). apply (is_val_fun x); assumption.
  - assert (NZ : m <> 0).
    { destruct t; cbn [unit_of] in EU; unfold gps_like_unit in EU;
      repeat match type of EU with context [if ?b then _ else _] => destruct b end; congruence. }
    rewrite H in H'. inversion H' as [E]. nia.
  - destruct ty; try discriminate. assert (EW : w = 10) by lia. assert (m = 1) by lia.
    assert (k = 10) by lia. subst. cbn [in_range] in R, R'. change (2 ^ (10 - 1)) with 512 in R, R'.
    destruct H as (x & r & -> & V & B), H' as (x' & r' & E & V' & B'). inversion E; subst x'.
    pose proof (is_val_fun _ _ _ V V') as Er. subst r'. cbv zeta in B, B'.
    change (10 ^ 10) with 10000000000 in B, B'. unfold Rdiv in B, B'. rewrite Rmult_1_l in B, B'.
    rewrite Rabs_mult, (Rabs_pos_eq (/ 10000000000)) in B, B' by lra.
    assert (VB : (Rabs (IZR v) <= 512)%R) by (rewrite <- abs_IZR; apply IZR_le; lia).
    assert (VB' : (Rabs (IZR v') <= 512)%R) by (rewrite <- abs_IZR; apply IZR_le; lia).
    assert (H51 : (bpow radix2 (-51) = / 2251799813685248)%R) by reflexivity.
    rewrite H51 in B, B'. apply Rabs_le_inv in B, B'.
    assert (D : (Rabs (IZR v - IZR v') < 1)%R) by (apply Rabs_lt; lra).
    rewrite <- minus_IZR, <- abs_IZR in D. apply lt_IZR in D. lia.
  - rewrite H in H'. inversion H'. lia.
  - destruct (TD eq_refl) as [M M']. destruct ty; try discriminate.
    assert (EW : w = 12) by lia. subst w. cbn [in_range] in R, R'. cbv zeta in H, H'.
    rewrite H in H'.
    assert (DV : forall z, 0 <= z < 4096 -> z = 128 * (z / 128) + 2 * ((z / 2) mod 64) + z mod 2) by (intros; lia).
    assert (B1 : 0 <= (v / 2) mod 64) by lia. assert (B1' : 0 <= (v' / 2) mod 64) by lia.
    assert (B2 : 0 <= v mod 2 < 2) by lia. assert (B2' : 0 <= v' mod 2 < 2) by lia.
    rewrite (DV v R), (DV v' R'). change (2 ^ 12) with 4096 in *.
    generalize dependent ((v / 2) mod 64). generalize dependent ((v' / 2) mod 64).
    generalize dependent (v mod 2). generalize dependent (v' mod 2).
    generalize dependent (v / 128). generalize dependent (v' / 128).
    clear. intros. apply VInt_inj in H'. lia.
Qed.

(** ** Encoding *)
Lemma field_value_encode n ty w v : (0 < w)%nat -> fits_field (Fld n ty w) v ->
  field_value ty (encode_field (Fld n ty w) v) = v.
Proof.
  intros W H. destruct ty; cbn [encode_field fits_field field_value] in *.
  - now apply uval_enc_small.
  - now apply sval_enc.
  - now apply smval_enc_sm.
Qed.

Lemma zlen_encode_field f v : (0 < field_width f)%nat -> zlen (encode_field f v) = Z.of_nat (field_width f).
Proof.
  intros W. destruct f as [n ty w|w]; cbn [encode_field field_width] in *.
  - destruct ty; [apply zlen_enc|apply zlen_enc|now apply zlen_enc_sm].
  - apply zlen_enc.
Qed.

Lemma fields_of_encode l : forall vals rest, length vals = length l ->
  Forall (fun f => (0 < field_width f)%nat) l -> Forall2 fits_field l vals ->
  fields_of l (encode_layout l vals ++ rest) = named_values l vals.
Proof.
  induction l as [|f l IH]; intros vals rest L W F; [reflexivity|].
  inversion F as [|? v ? vs Fv Fvs]; subst. inversion W as [|? ? Wf Wl]; subst.
  cbn [length] in L. cbn [encode_layout]. rewrite <- app_assoc.
  pose proof (zlen_encode_field f v Wf) as LE. unfold zlen in LE.
  assert (LN : length (encode_field f v) = field_width f) by lia.
  assert (SK : skipn (field_width f) (encode_field f v ++ encode_layout l vs ++ rest)
               = encode_layout l vs ++ rest).
  { rewrite skipn_app, skipn_all2 by lia. rewrite LN, Nat.sub_diag. reflexivity. }
  destruct f as [n ty w|w]; cbn [fields_of named_values field_width] in *; rewrite SK.
  - rewrite IH by (try assumption; lia). f_equal. f_equal.
    rewrite firstn_app, firstn_all2 by lia. rewrite LN, Nat.sub_diag, firstn_O, app_nil_r.
    now apply field_value_encode.
  - apply IH; try assumption; lia.
Qed.

Lemma layout_widths t : Forall (fun f => (0 < field_width f)%nat) (layout t).
Proof. destruct t; repeat constructor. Qed.

Lemma zlen_encode_layout l : forall vals, length vals = length l ->
  Forall (fun f => (0 < field_width f)%nat) l -> zlen (encode_layout l vals) = layout_width l.
Proof.
  induction l as [|f l IH]; intros [|v vals] L W; try discriminate; [reflexivity|].
  inversion W; subst. cbn [encode_layout layout_width fold_right]. rewrite zlen_app, zlen_encode_field by assumption.
  rewrite IH; [reflexivity| |assumption]. cbn in L. lia.
Qed.
