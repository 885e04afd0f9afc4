(** * ReadProofs: reading successive fields of a frame. *)
From Verif Require Import PyBase BitsModel BitsSpec BitsProofs CrcModel CrcSpec CrcProofs
  FramerSpec FramerProofs MessageSpec.

(** From bit offset [off] on, the buffer's bits are [rest]. *)
Definition at_bits (buf : list Z) (off : Z) (rest : list bool) : Prop :=
  0 <= off /\ bytes_ok buf /\ off + zlen rest = 8 * zlen buf /\
  skipn (Z.to_nat off) (bits_of buf) = rest.

Lemma at_field buf off f rest :
  at_bits buf off (f ++ rest) -> 1 <= zlen f <= 128 ->
  field_inside buf off (zlen f) /\ field buf off (zlen f) = f.
Proof.
  intros (H0 & Hb & Hl & Hs) Hf. rewrite zlen_app in Hl. pose proof (zlen_nonneg rest).
  split.
  - unfold field_inside. lia.
  - unfold field. rewrite Hs. unfold zlen. rewrite Nat2Z.id.
    rewrite firstn_app, firstn_all, Nat.sub_diag. cbn [firstn]. apply app_nil_r.
Qed.

Lemma at_next buf off f rest :
  at_bits buf off (f ++ rest) -> at_bits buf (off + zlen f) rest.
Proof.
  intros (H0 & Hb & Hl & Hs). rewrite zlen_app in Hl. pose proof (zlen_nonneg f).
  repeat split; try assumption; try lia.
  rewrite Z2Nat.inj_add by lia.
  rewrite <- skipn_skipn, Hs. unfold zlen. rewrite Nat2Z.id.
  rewrite skipn_app, skipn_all, Nat.sub_diag. reflexivity.
Qed.

Lemma at_skip buf off off' f rest :
  at_bits buf off (f ++ rest) -> off' = off + zlen f -> at_bits buf off' rest.
Proof. intros H ->. now apply at_next. Qed.

Lemma at_u buf off off' len w v rest :
  at_bits buf off (enc w v ++ rest) -> off' = off -> len = Z.of_nat w -> 1 <= len <= 128 ->
  getbitu buf off' len = Ok (v mod 2 ^ len) /\ at_bits buf (off + len) rest.
Proof.
  intros H -> -> Hl.
  destruct (at_field _ _ _ _ H) as [Hi Hf]; [rewrite zlen_enc; exact Hl|].
  rewrite zlen_enc in Hi, Hf. split.
  - rewrite getbitu_ok by (try assumption; apply H). rewrite Hf, uval_enc. reflexivity.
  - apply at_next in H. now rewrite zlen_enc in H.
Qed.

Lemma at_u_small buf off off' len w v rest :
  at_bits buf off (enc w v ++ rest) -> off' = off -> len = Z.of_nat w -> 1 <= len <= 128 ->
  fits_u w v ->
  getbitu buf off' len = Ok v /\ at_bits buf (off + len) rest.
Proof.
  intros H E1 E2 Hl Hv. destruct (at_u _ _ _ _ _ _ _ H E1 E2 Hl) as [A B].
  split; [|exact B]. rewrite A. f_equal. subst len. now apply Z.mod_small.
Qed.

Lemma at_s buf off off' len w v rest :
  at_bits buf off (enc w v ++ rest) -> off' = off -> len = Z.of_nat w -> 1 <= len <= 128 ->
  fits_s w v ->
  getbits buf off' len = Ok v /\ at_bits buf (off + len) rest.
Proof.
  intros H -> -> Hl Hv.
  destruct (at_field _ _ _ _ H) as [Hi Hf]; [rewrite zlen_enc; exact Hl|].
  rewrite zlen_enc in Hi, Hf. split.
  - rewrite getbits_ok by (try assumption; apply H). rewrite Hf, sval_enc by (try lia; exact Hv).
    reflexivity.
  - apply at_next in H. now rewrite zlen_enc in H.
Qed.

Lemma zlen_enc_sm w v : (0 < w)%nat -> zlen (enc_sm w v) = Z.of_nat w.
Proof. intros H. unfold enc_sm. rewrite zlen_cons, zlen_enc. lia. Qed.

Lemma smval_enc_sm w v : (0 < w)%nat -> fits_sm w v -> smval (enc_sm w v) = v.
Proof.
  intros Hw Hv. unfold enc_sm, fits_sm in *. cbn [smval].
  rewrite uval_enc_small by (replace (Z.of_nat (w - 1)) with (Z.of_nat w - 1) by lia; lia).
  destruct (v <? 0) eqn:E; lia.
Qed.

Lemma at_sm buf off off' len w v rest :
  at_bits buf off (enc_sm w v ++ rest) -> off' = off -> len = Z.of_nat w -> 1 <= len <= 128 ->
  fits_sm w v ->
  getbitS buf off' len = Ok v /\ at_bits buf (off + len) rest.
Proof.
  intros H -> -> Hl Hv.
  destruct (at_field _ _ _ _ H) as [Hi Hf]; [rewrite zlen_enc_sm; lia|].
  rewrite zlen_enc_sm in Hi, Hf by lia. split.
  - rewrite getbitS_ok by (try assumption; apply H).
    rewrite Hf, smval_enc_sm by (try lia; exact Hv). reflexivity.
  - apply at_next in H. now rewrite zlen_enc_sm in H by lia.
Qed.

(** ** Converse: what a successful read says about the bits. *)
Lemma enc_uval l : enc (length l) (uval l) = l.
Proof.
  induction l as [|b l IH]; [reflexivity|].
  cbn [length enc uval]. pose proof (uval_bound l) as U. fold (zlen l).
  f_equal.
  - destruct b.
    + rewrite Z.add_comm. apply Z.testbit_true; [apply zlen_nonneg|].
      replace (uval l + 2 ^ zlen l) with (uval l + 1 * 2 ^ zlen l) by lia.
      rewrite Z.div_add by lia. rewrite Z.div_small by lia. reflexivity.
    + rewrite Z.add_0_l. apply Z.testbit_false; [apply zlen_nonneg|].
      now rewrite Z.div_small by lia.
  - assert (E : forall w v k, enc w (v + k * 2 ^ Z.of_nat w) = enc w v).
    { clear. intros w; induction w as [|w IH]; intros v k; [reflexivity|].
      cbn [enc]. f_equal.
      - replace (k * 2 ^ Z.of_nat (S w)) with (2 * k * 2 ^ Z.of_nat w)
          by (rewrite Nat2Z.inj_succ, Z.pow_succ_r by lia; lia).
        rewrite !Z.testbit_odd, !Z.shiftr_div_pow2 by lia.
        rewrite Z.div_add by lia.
        replace (2 * k) with (0 + 2 * k) by lia. rewrite Z.add_assoc, Z.add_0_r.
        rewrite Z.odd_add_mul_2. reflexivity.
      - replace (k * 2 ^ Z.of_nat (S w)) with (2 * k * 2 ^ Z.of_nat w)
          by (rewrite Nat2Z.inj_succ, Z.pow_succ_r by lia; lia).
        apply IH. }
    destruct b; [|rewrite Z.add_0_l; exact IH].
    rewrite Z.add_comm. replace (2 ^ zlen l) with (1 * 2 ^ Z.of_nat (length l)) by (unfold zlen; lia).
    rewrite E. exact IH.
Qed.

Lemma at_split buf off n rest :
  at_bits buf off rest -> 0 <= n -> off + n <= 8 * zlen buf ->
  exists f rest', rest = f ++ rest' /\ zlen f = n /\ at_bits buf (off + n) rest'.
Proof.
  intros H Hn Hle. exists (firstn (Z.to_nat n) rest), (skipn (Z.to_nat n) rest).
  assert (L : zlen (firstn (Z.to_nat n) rest) = n).
  { destruct H as (_ & _ & Hl & _). unfold zlen in *. rewrite firstn_length. lia. }
  rewrite firstn_skipn. split; [reflexivity|]. split; [exact L|].
  rewrite <- (firstn_skipn (Z.to_nat n) rest) in H. apply at_next in H. now rewrite L in H.
Qed.

Lemma getbitu_inv buf off len v rest :
  at_bits buf off rest -> getbitu buf off len = Ok v ->
  exists rest', rest = enc (Z.to_nat len) v ++ rest' /\ fits_u (Z.to_nat len) v /\
    1 <= len <= 128 /\ at_bits buf (off + len) rest'.
Proof.
  intros H E. pose proof H as (H0 & Hb & Hl & Hs).
  destruct (getbitu_spec buf off len Hb) as [[Hi E']|[_ E']]; [|congruence].
  rewrite E in E'. inversion E'; subst v. clear E'.
  pose proof (field_length _ _ _ Hi) as FL.
  destruct Hi as (L & P & I).
  destruct (at_split _ _ len _ H ltac:(lia) ltac:(lia)) as (f & rest' & -> & Lf & A).
  destruct (at_field _ _ _ _ H) as [_ Hf]; [lia|]. rewrite Lf in Hf.
  exists rest'. rewrite Hf.
  assert (W : Z.to_nat len = length f) by (unfold zlen in Lf; lia).
  split; [|split; [|split; [lia|exact A]]].
  - rewrite W, enc_uval. reflexivity.
  - rewrite W. unfold fits_u. apply uval_bound.
Qed.

Lemma enc_sval l : enc (length l) (sval l) = l.
Proof.
  destruct l as [|b l]; [reflexivity|].
  transitivity (enc (length (b :: l)) (uval (b :: l))); [|apply enc_uval].
  assert (E : forall w v v', (forall i, 0 <= i < Z.of_nat w -> Z.testbit v i = Z.testbit v' i) ->
              enc w v = enc w v').
  { clear. induction w as [|w IH]; intros v v' Hv; [reflexivity|]. cbn [enc]. f_equal.
    - apply Hv; lia.
    - apply IH. intros i Hi. apply Hv; lia. }
  apply E. intros i Hi. cbn [sval uval length] in *. destruct b; [|reflexivity].
  assert (X : 2 ^ zlen l + uval l = (- 2 ^ zlen l + uval l) + 1 * 2 ^ (1 + zlen l)).
  { rewrite Z.pow_add_r by (try apply zlen_nonneg; lia). lia. }
  rewrite X.
  rewrite <- (Z.mod_pow2_bits_low (- 2 ^ zlen l + uval l) (1 + zlen l)) by (unfold zlen; lia).
  rewrite <- (Z.mod_pow2_bits_low (- 2 ^ zlen l + uval l + _) (1 + zlen l)) by (unfold zlen; lia).
  rewrite Z.mod_add by (apply Z.pow_nonzero; [lia|pose proof (zlen_nonneg l); lia]).
  reflexivity.
Qed.

Lemma getbits_inv buf off len v rest :
  at_bits buf off rest -> getbits buf off len = Ok v ->
  exists rest', rest = enc (Z.to_nat len) v ++ rest' /\ fits_s (Z.to_nat len) v /\
    1 <= len <= 128 /\ at_bits buf (off + len) rest'.
Proof.
  intros H E. pose proof H as (H0 & Hb & Hl & Hs).
  assert (D : field_inside buf off len \/ ~ field_inside buf off len)
    by (unfold field_inside; lia).
  destruct D as [Hi|Hn]; [|rewrite getbits_err in E by assumption; discriminate].
  rewrite getbits_ok in E by assumption. inversion E; subst v; clear E.
  pose proof (field_length _ _ _ Hi) as FL.
  destruct Hi as (L & P & I).
  destruct (at_split _ _ len _ H ltac:(lia) ltac:(lia)) as (f & rest' & -> & Lf & A).
  destruct (at_field _ _ _ _ H) as [_ Hf]; [lia|]. rewrite Lf in Hf.
  exists rest'. rewrite Hf.
  assert (W : Z.to_nat len = length f) by (unfold zlen in Lf; lia).
  split; [|split; [|split; [lia|exact A]]].
  - rewrite W, enc_sval. reflexivity.
  - rewrite W. unfold fits_s. apply sval_range. intros ->. cbn in Lf. lia.
Qed.

(** ** Frames *)
Lemma frame_at buf payload crc :
  transport_frame buf payload crc ->
  at_bits buf 24 (bits_of payload ++ bits_of crc) /\
  getbitu buf 14 10 = Ok (zlen payload) /\
  zlen buf = zlen payload + 6 /\ bytes_ok buf.
Proof.
  intros (-> & Hp & Hc & Bp & Bc). unfold frame_of.
  pose proof (zlen_nonneg payload) as P0.
  set (h := [0xD3; zlen payload / 256; zlen payload mod 256]).
  assert (Bh : bytes_ok h).
  { unfold h. rewrite !bytes_ok_cons. unfold byte_ok.
    assert (0 <= zlen payload / 256 < 4) by lia.
    repeat split; try lia. constructor. }
  assert (B : bytes_ok (h ++ payload ++ crc)) by (rewrite !bytes_ok_app; tauto).
  assert (L : zlen (h ++ payload ++ crc) = zlen payload + 6)
    by (rewrite !zlen_app, Hc; change (zlen h) with 3; lia).
  split; [|split; [|split; [exact L|exact B]]].
  - repeat split; [lia|exact B| |].
    + rewrite L, zlen_app, !zlen_bits_of, Hc. lia.
    + rewrite !bits_of_app. change (Z.to_nat 24) with (length (bits_of h)).
      now rewrite skipn_app, skipn_all, Nat.sub_diag.
  - pose proof (len_field (zlen payload / 256) (zlen payload mod 256) (payload ++ crc)) as LF.
    unfold h in *. cbn [app] in *.
    rewrite LF; [f_equal; lia|apply bytes_ok_app; tauto|lia|unfold byte_ok; lia].
Qed.
