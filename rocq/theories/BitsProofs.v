(** * BitsProofs: the bit-extraction primitives meet BitsSpec. *)
From Verif Require Import PyBase BitsModel BitsSpec.

(** ** Ranges and slices *)
Lemma zrange_n_app a n m :
  zrange_n a (n + m) = zrange_n a n ++ zrange_n (a + Z.of_nat n) m.
Proof.
  revert a; induction n as [|n IH]; intros a; cbn [zrange_n app Nat.add].
  - f_equal; lia.
  - f_equal. rewrite IH. do 2 f_equal. lia.
Qed.

Lemma zrange_n_length a n : length (zrange_n a n) = n.
Proof. revert a; induction n; intros a; cbn [zrange_n length]; auto. Qed.

Lemma zrange_length a b : length (zrange a b) = Z.to_nat (b - a).
Proof. apply zrange_n_length. Qed.

Lemma zrange_n_In a n x : In x (zrange_n a n) <-> a <= x < a + Z.of_nat n.
Proof.
  revert a; induction n as [|n IH]; intros a; cbn [zrange_n In]; [lia|].
  rewrite IH; lia.
Qed.

Lemma zrange_In a b x : In x (zrange a b) <-> a <= x < b.
Proof. unfold zrange; rewrite zrange_n_In; lia. Qed.

Lemma py_index_nth {A} (l : list A) i : 0 <= i ->
  py_index l i = match nth_error l (Z.to_nat i) with Some a => Ok a | None => Err EIndex end.
Proof.
  intros H. unfold py_index. cbv zeta.
  replace (i <? 0) with false by lia. replace (i <? 0) with false by lia. reflexivity.
Qed.

Lemma py_index_inside {A} (l : list A) i :
  0 <= i < zlen l -> exists a, py_index l i = Ok a /\ nth_error l (Z.to_nat i) = Some a.
Proof.
  intros H. rewrite py_index_nth by lia.
  destruct (nth_error l (Z.to_nat i)) as [a|] eqn:E; [eauto|].
  apply nth_error_None in E; unfold zlen in H; lia.
Qed.

Lemma skipn_nth_error {A} (l : list A) n a :
  nth_error l n = Some a -> skipn n l = a :: skipn (S n) l.
Proof.
  revert n; induction l as [|x l IH]; intros [|n] H; try discriminate.
  - now inversion H.
  - cbn [nth_error] in H. cbn [skipn]. rewrite (IH _ H). reflexivity.
Qed.

Lemma skipn_skipn {A} (x y : nat) (l : list A) : skipn x (skipn y l) = skipn (y + x) l.
Proof.
  revert l; induction y as [|y IH]; intros l; [reflexivity|].
  destruct l as [|a l]; cbn [skipn Nat.add]; [now rewrite skipn_nil | apply IH].
Qed.

Definition bval (l : list Z) : Z := fold_left (fun a b => a * 256 + b) l 0.

Lemma read_loop_from buf n : forall s acc,
  0 <= s -> s + Z.of_nat n <= zlen buf ->
  for_each (zrange_n s n) acc (fun acc i => b <- py_index buf i ;; Ok (acc * 256 + b))
  = Ok (fold_left (fun a b => a * 256 + b) (firstn n (skipn (Z.to_nat s) buf)) acc).
Proof.
  induction n as [|n IH]; intros s acc H0 H1; cbn [zrange_n for_each]; [reflexivity|].
  destruct (py_index_inside buf s) as (b & Hb & Hn); [lia|].
  rewrite Hb; cbn [bind].
  rewrite IH by lia.
  rewrite (skipn_nth_error _ _ _ Hn). cbn [firstn fold_left].
  do 3 f_equal. f_equal. lia.
Qed.

(** ** Values of bit strings *)
Lemma zlen_bits_of l : zlen (bits_of l) = 8 * zlen l.
Proof.
  induction l as [|b l IH]; [reflexivity|].
  unfold bits_of in *; cbn [flat_map]. rewrite zlen_app, IH, zlen_cons.
  unfold byte_bits; rewrite zlen_map. unfold zlen at 1; cbn [length]; lia.
Qed.

Lemma length_bits_of l : length (bits_of l) = (8 * length l)%nat.
Proof. pose proof (zlen_bits_of l) as H; unfold zlen in H; lia. Qed.

Lemma bits_of_app a b : bits_of (a ++ b) = bits_of a ++ bits_of b.
Proof. apply flat_map_app. Qed.

Lemma uval_app a b : uval (a ++ b) = uval a * 2 ^ zlen b + uval b.
Proof.
  induction a as [|x a IH]; [cbn [uval app]; lia|].
  cbn [uval app]. rewrite IH, zlen_app, Z.pow_add_r by apply zlen_nonneg.
  destruct x; lia.
Qed.

Lemma uval_bound l : 0 <= uval l < 2 ^ zlen l.
Proof.
  induction l as [|b l IH]; [cbn; lia|].
  cbn [uval]; rewrite zlen_cons, Z.pow_add_r by (try apply zlen_nonneg; lia).
  change (2 ^ 1) with 2. destruct b; lia.
Qed.

Lemma uval_byte_bits b : byte_ok b -> uval (byte_bits b) = b.
Proof.
  intros H.
  assert (E : forallb (fun b => uval (byte_bits b) =? b) (zrange 0 256) = true)
    by (vm_compute; reflexivity).
  rewrite forallb_forall in E.
  apply Z.eqb_eq, E, zrange_In, H.
Qed.

Lemma zlen_byte_bits b : zlen (byte_bits b) = 8.
Proof. reflexivity. Qed.

Lemma fold_uval l : forall acc, bytes_ok l ->
  fold_left (fun a b => a * 256 + b) l acc = acc * 2 ^ (8 * zlen l) + uval (bits_of l).
Proof.
  induction l as [|b l IH]; intros acc H.
  - cbn; lia.
  - apply bytes_ok_cons in H as [Hb Hl]. cbn [fold_left].
    rewrite IH by assumption.
    change (bits_of (b :: l)) with (byte_bits b ++ bits_of l).
    rewrite uval_app, uval_byte_bits, zlen_bits_of, zlen_cons by assumption.
    replace (8 * (1 + zlen l)) with (8 + 8 * zlen l) by lia.
    rewrite Z.pow_add_r by (pose proof (zlen_nonneg l); lia).
    change (2 ^ 8) with 256. lia.
Qed.

Lemma bval_uval l : bytes_ok l -> bval l = uval (bits_of l).
Proof. intros H; unfold bval; rewrite fold_uval by assumption; lia. Qed.

Lemma shiftr_uval l n : 0 <= n <= zlen l ->
  Z.shiftr (uval l) n = uval (firstn (length l - Z.to_nat n) l).
Proof.
  intros H.
  rewrite <- (firstn_skipn (length l - Z.to_nat n) l) at 1.
  rewrite uval_app, Z.shiftr_div_pow2 by lia.
  set (b := skipn _ l).
  assert (Hb : zlen b = n).
  { unfold zlen, b in *. rewrite skipn_length. lia. }
  rewrite Hb. pose proof (uval_bound b) as Hu. rewrite Hb in Hu.
  rewrite Z.div_add_l by lia. rewrite (Z.div_small (uval b)) by lia. lia.
Qed.

Lemma land_mask_uval l n : 0 <= n <= zlen l ->
  Z.land (uval l) (Z.shiftl 1 n - 1) = uval (skipn (length l - Z.to_nat n) l).
Proof.
  intros H.
  rewrite Z.shiftl_1_l, Z.sub_1_r, <- Z.ones_equiv, Z.land_ones by lia.
  rewrite <- (firstn_skipn (length l - Z.to_nat n) l) at 1.
  rewrite uval_app.
  set (b := skipn _ l).
  assert (Hb : zlen b = n).
  { unfold zlen, b in *. rewrite skipn_length. lia. }
  rewrite Hb. pose proof (uval_bound b) as Hu. rewrite Hb in Hu.
  rewrite Z.add_comm, Z.mod_add by lia. apply Z.mod_small; lia.
Qed.

Lemma bits_of_skipn n l : bits_of (skipn n l) = skipn (8 * n) (bits_of l).
Proof.
  revert l; induction n as [|n IH]; intros l; [reflexivity|].
  replace (8 * S n)%nat with (8 + 8 * n)%nat by lia.
  destruct l as [|b l]; [reflexivity|].
  cbn [skipn]. rewrite IH. reflexivity.
Qed.

Lemma bits_of_firstn n l : bits_of (firstn n l) = firstn (8 * n) (bits_of l).
Proof.
  revert l; induction n as [|n IH]; intros l; [reflexivity|].
  replace (8 * S n)%nat with (8 + 8 * n)%nat by lia.
  destruct l as [|b l]; [reflexivity|].
  cbn [firstn]. unfold bits_of in *; cbn [flat_map]. rewrite IH. reflexivity.
Qed.

(** Characterisation without the bounds on [bytes_ok]: which requests fail. *)
Lemma getbitu_err buf pos len :
  ~ field_inside buf pos len -> getbitu buf pos len = Err EBits.
Proof.
  intros H. unfold getbitu, field_inside, MAX_BIT_WIDTH in *.
  destruct ((len <? 1) || (128 <? len) || (pos <? 0)) eqn:E1; [reflexivity|].
  rewrite Z.shiftr_div_pow2 by lia. change (2 ^ 3) with 8.
  destruct (zlen buf <? (pos + len + 7) / 8) eqn:E2; [reflexivity|].
  exfalso; apply H. lia.
Qed.

Lemma getbitu_ok buf pos len :
  bytes_ok buf -> field_inside buf pos len ->
  getbitu buf pos len = Ok (uval (field buf pos len)).
Proof.
  intros Hb (Hl & Hp & Hin). unfold getbitu, MAX_BIT_WIDTH.
  replace ((len <? 1) || (128 <? len) || (pos <? 0)) with false by lia.
  cbv zeta.
  rewrite !Z.shiftr_div_pow2 by lia. change (2 ^ 3) with 8.
  replace (zlen buf <? (pos + len + 7) / 8) with false by lia.
  set (fb := (pos + len + 7) / 8). set (sb := pos / 8).
  assert (Hsb : 0 <= sb /\ sb * 8 <= pos < sb * 8 + 8) by (unfold sb; lia).
  assert (Hfb : fb * 8 - 8 < pos + len <= fb * 8) by (unfold fb; lia).
  clearbody fb sb.
  unfold zrange. rewrite read_loop_from by (unfold zlen in *; lia).
  cbn [bind].
  change (fold_left _ _ 0) with (bval (firstn (Z.to_nat (fb - sb)) (skipn (Z.to_nat sb) buf))).
  rewrite bval_uval by (now apply bytes_ok_firstn, bytes_ok_skipn).
  rewrite bits_of_firstn, bits_of_skipn.
  set (B := bits_of buf).
  assert (HB : zlen B = 8 * zlen buf) by apply zlen_bits_of.
  unfold zlen in HB, Hin.
  f_equal.
  rewrite shiftr_uval by (unfold zlen; rewrite firstn_length, skipn_length; lia).
  rewrite land_mask_uval
    by (unfold zlen; rewrite !firstn_length, skipn_length; lia).
  f_equal. unfold field; fold B.
  rewrite !firstn_length, skipn_length.
  rewrite firstn_firstn.
  rewrite skipn_firstn_comm.
  rewrite skipn_skipn.
  f_equal; [lia|]. f_equal; lia.
Qed.

Theorem getbitu_spec buf pos len :
  bytes_ok buf ->
  (field_inside buf pos len /\ getbitu buf pos len = Ok (uval (field buf pos len)))
  \/ (~ field_inside buf pos len /\ getbitu buf pos len = Err EBits).
Proof.
  intros Hb.
  assert (D : field_inside buf pos len \/ ~ field_inside buf pos len)
    by (unfold field_inside; lia).
  destruct D as [D|D]; [left|right]; split; auto using getbitu_ok, getbitu_err.
Qed.

(** ** Sign handling *)
Lemma field_length buf pos len :
  field_inside buf pos len -> zlen (field buf pos len) = len.
Proof.
  intros (Hl & Hp & Hin). unfold zlen, field.
  rewrite firstn_length, skipn_length, length_bits_of. unfold zlen in Hin. lia.
Qed.


Lemma land_pow2_small v n : 0 <= n -> 0 <= v < 2 ^ n -> Z.land v (2 ^ n) = 0.
Proof.
  intros Hn Hv. apply Z.bits_inj'. intros i Hi.
  rewrite Z.land_spec, Z.bits_0, Z.pow2_bits_eqb by lia.
  destruct (n =? i) eqn:E; [|now rewrite andb_false_r].
  apply Z.eqb_eq in E; subst i.
  rewrite andb_true_r. apply Z.testbit_false; [lia|].
  rewrite Z.div_small by lia. reflexivity.
Qed.

Lemma lxor_pow2_clear v n : 0 <= n -> 0 <= v < 2 ^ n -> Z.lxor v (2 ^ n) = v + 2 ^ n.
Proof. intros Hn Hv. symmetry. apply Z.add_nocarry_lxor, land_pow2_small; assumption. Qed.

Lemma lxor_pow2_set v n : 0 <= n -> 0 <= v < 2 ^ n -> Z.lxor (2 ^ n + v) (2 ^ n) = v.
Proof.
  intros Hn Hv.
  rewrite (Z.add_comm (2 ^ n) v), <- lxor_pow2_clear by assumption.
  rewrite Z.lxor_assoc, Z.lxor_nilpotent. apply Z.lxor_0_r.
Qed.

Lemma land_pow2_set v n : 0 <= n -> 0 <= v < 2 ^ n -> Z.land (2 ^ n + v) (2 ^ n) = 2 ^ n.
Proof.
  intros Hn Hv. apply Z.bits_inj'. intros i Hi.
  rewrite Z.land_spec, Z.pow2_bits_eqb by lia.
  destruct (n =? i) eqn:E; [|now rewrite andb_false_r].
  apply Z.eqb_eq in E; subst i.
  rewrite andb_true_r. apply Z.testbit_true; [lia|].
  replace (2 ^ n + v) with (1 * 2 ^ n + v) by lia.
  rewrite Z.div_add_l, (Z.div_small v) by lia. reflexivity.
Qed.

Lemma sign_extend l : l <> [] ->
  let mask := Z.shiftl 1 (zlen l - 1) in Z.lxor (uval l) mask - mask = sval l.
Proof.
  intros Hl. destruct l as [|b l]; [congruence|]. cbv zeta.
  rewrite zlen_cons. replace (1 + zlen l - 1) with (zlen l) by lia.
  pose proof (uval_bound l). pose proof (zlen_nonneg l).
  rewrite Z.shiftl_1_l. cbn [uval sval].
  destruct b.
  - rewrite lxor_pow2_set by lia. lia.
  - rewrite Z.add_0_l, lxor_pow2_clear by lia. lia.
Qed.

Lemma sign_magnitude l : l <> [] ->
  let sg := Z.shiftl 1 (zlen l - 1) in
  (if Z.land (uval l) sg =? 0 then Z.land (uval l) (sg - 1) else - Z.land (uval l) (sg - 1))
  = smval l.
Proof.
  intros Hl. destruct l as [|b l]; [congruence|]. cbv zeta.
  rewrite zlen_cons. replace (1 + zlen l - 1) with (zlen l) by lia.
  pose proof (uval_bound l). pose proof (zlen_nonneg l).
  assert (E : Z.land (uval (b :: l)) (Z.shiftl 1 (zlen l) - 1) = uval l).
  { rewrite land_mask_uval by (rewrite zlen_cons; lia).
    f_equal. unfold zlen. cbn [length]. replace (S (length l) - _)%nat with 1%nat by lia.
    reflexivity. }
  rewrite E. rewrite Z.shiftl_1_l. cbn [uval smval].
  destruct b.
  - rewrite land_pow2_set by lia. replace (2 ^ zlen l =? 0) with false by lia. reflexivity.
  - rewrite Z.add_0_l, land_pow2_small by lia. reflexivity.
Qed.

Lemma field_nonnil buf pos len : field_inside buf pos len -> field buf pos len <> [].
Proof.
  intros H E. pose proof (field_length _ _ _ H) as L. rewrite E in L.
  destruct H. cbn in L. lia.
Qed.

Lemma getbits_ok buf pos len :
  bytes_ok buf -> field_inside buf pos len ->
  getbits buf pos len = Ok (sval (field buf pos len)).
Proof.
  intros Hb Hf. unfold getbits. rewrite getbitu_ok by assumption. cbn [bind].
  rewrite <- (field_length _ _ _ Hf) at 2 3.
  cbv zeta. rewrite sign_extend by now apply field_nonnil. reflexivity.
Qed.

Lemma getbits_err buf pos len :
  ~ field_inside buf pos len -> getbits buf pos len = Err EBits.
Proof. intros H; unfold getbits; rewrite getbitu_err by assumption; reflexivity. Qed.

Lemma getbitS_ok buf pos len :
  bytes_ok buf -> field_inside buf pos len ->
  getbitS buf pos len = Ok (smval (field buf pos len)).
Proof.
  intros Hb Hf. unfold getbitS.
  replace (len - 1 <? 0) with false by (unfold field_inside in Hf; lia).
  cbv zeta. rewrite getbitu_ok by assumption. cbn [bind].
  rewrite <- (sign_magnitude (field buf pos len)) by now apply field_nonnil.
  cbv zeta. rewrite field_length by assumption. reflexivity.
Qed.

Lemma getbitS_err buf pos len :
  ~ field_inside buf pos len -> exists e, getbitS buf pos len = Err e.
Proof.
  intros H; unfold getbitS. destruct (len - 1 <? 0); [eauto|].
  cbv zeta. rewrite getbitu_err by assumption. cbn [bind]. eauto.
Qed.

Lemma sval_range l : l <> [] -> - 2 ^ (zlen l - 1) <= sval l < 2 ^ (zlen l - 1).
Proof.
  destruct l as [|b l]; [congruence|]. intros _.
  rewrite zlen_cons. replace (1 + zlen l - 1) with (zlen l) by lia.
  cbn [sval]. pose proof (uval_bound l). destruct b; lia.
Qed.

Lemma smval_range l : l <> [] -> Z.abs (smval l) < 2 ^ (zlen l - 1).
Proof.
  destruct l as [|b l]; [congruence|]. intros _.
  rewrite zlen_cons. replace (1 + zlen l - 1) with (zlen l) by lia.
  cbn [smval]. pose proof (uval_bound l). destruct b; lia.
Qed.

(** ** Bit reversal *)
Lemma rev_loop n : forall s rv src i, 0 <= i -> 0 <= s ->
  exists rv' src',
  for_each (zrange_n s n) (rv, src)
     (fun '(rv, src) _ => Ok (Z.lor (Z.shiftl rv 1) (Z.land src 1), Z.shiftr src 1))
  = Ok (rv', src')
  /\ src' = Z.shiftr src (Z.of_nat n)
  /\ forall i, 0 <= i ->
      Z.testbit rv' i =
      if i <? Z.of_nat n then Z.testbit src (Z.of_nat n - 1 - i)
      else Z.testbit rv (i - Z.of_nat n).
Proof.
  induction n as [|n IH]; intros s rv src i0 Hi0 Hs.
  - exists rv, src. split; [reflexivity|]. split; [now rewrite Z.shiftr_0_r|].
    intros i Hi. replace (i <? Z.of_nat 0) with false by lia. f_equal; lia.
  - cbn [zrange_n for_each bind].
    destruct (IH (s + 1) (Z.lor (Z.shiftl rv 1) (Z.land src 1)) (Z.shiftr src 1) 0)
      as (rv' & src' & E & Hsrc & Hbits); [lia|lia|].
    exists rv', src'. split; [exact E|]. split.
    + rewrite Hsrc, Z.shiftr_shiftr by lia. f_equal; lia.
    + intros i Hi. rewrite Hbits by lia.
      destruct (i <? Z.of_nat n) eqn:E1.
      * replace (i <? Z.of_nat (S n)) with true by lia.
        rewrite Z.shiftr_spec by lia. f_equal; lia.
      * rewrite Z.lor_spec, Z.land_spec.
        destruct (i <? Z.of_nat (S n)) eqn:E2.
        -- assert (i = Z.of_nat n) by lia. subst i.
           replace (Z.of_nat n - Z.of_nat n) with 0 by lia.
           rewrite Z.shiftl_spec_low by lia. cbn [orb].
           replace (Z.of_nat (S n) - 1 - Z.of_nat n) with 0 by lia.
           change (Z.testbit 1 0) with true. now rewrite andb_true_r.
        -- rewrite Z.shiftl_spec by lia.
           replace (Z.testbit 1 (i - Z.of_nat n)) with false.
           ++ rewrite andb_false_r, orb_false_r. f_equal; lia.
           ++ symmetry. change 1 with (2 ^ 0). apply Z.pow2_bits_false. lia.
Qed.

(** The reversed field: bit [i] of the result is bit [ofs+len-1-i] of [a], and the
    result has no bit at or above [len]. *)
Lemma revbitu_ok a len ofs :
  0 <= len -> 0 <= ofs -> len + ofs <= 128 ->
  exists r, revbitu a len ofs = Ok r /\
  forall i, 0 <= i ->
    Z.testbit r i = (i <? len) && Z.testbit a (ofs + len - 1 - i).
Proof.
  intros Hl Ho Hlo. unfold revbitu, MAX_BIT_WIDTH.
  replace (128 <? len + ofs) with false by lia.
  replace (ofs <? 0) with false by lia. cbv zeta. unfold zrange.
  destruct (rev_loop (Z.to_nat (len - 0)) 0 0 (Z.shiftr a ofs) 0)
    as (rv & src & E & _ & Hb); [lia|lia|].
  rewrite E. cbn [bind]. exists rv. split; [reflexivity|].
  intros i Hi. rewrite Hb by lia.
  replace (Z.of_nat (Z.to_nat (len - 0))) with len by lia.
  destruct (i <? len) eqn:E1; cbn [andb].
  - rewrite Z.shiftr_spec by lia. f_equal; lia.
  - apply Z.bits_0.
Qed.

Lemma revbitu_err a len ofs :
  128 < len + ofs -> revbitu a len ofs = Err EBits.
Proof. intros H; unfold revbitu, MAX_BIT_WIDTH. now replace (128 <? len + ofs) with true by lia. Qed.

Lemma revbitu_nonneg a len ofs r :
  0 <= len -> 0 <= ofs -> len + ofs <= 128 -> revbitu a len ofs = Ok r -> 0 <= r < 2 ^ len.
Proof.
  intros Hl Ho Hlo E. destruct (revbitu_ok a len ofs Hl Ho Hlo) as (r' & E' & Hb).
  rewrite E in E'; inversion E'; subst r'.
  assert (Hr : r = r mod 2 ^ len).
  { apply Z.bits_inj'. intros i Hi.
    destruct (Z.ltb_spec i len).
    - rewrite Z.mod_pow2_bits_low by lia. reflexivity.
    - rewrite Z.mod_pow2_bits_high by lia. rewrite Hb by lia.
      now replace (i <? len) with false by lia. }
  rewrite Hr. apply Z.mod_pos_bound. lia.
Qed.

Lemma revbitu_involutive a len ofs r :
  0 <= len -> 0 <= ofs -> len + ofs <= 128 -> revbitu a len ofs = Ok r ->
  revbitu r len 0 = Ok (Z.shiftr a ofs mod 2 ^ len).
Proof.
  intros Hl Ho Hlo E. destruct (revbitu_ok a len ofs Hl Ho Hlo) as (r' & E' & Hb).
  rewrite E in E'; inversion E'; subst r'.
  destruct (revbitu_ok r len 0 Hl ltac:(lia) ltac:(lia)) as (r2 & E2 & Hb2).
  rewrite E2. f_equal. apply Z.bits_inj'. intros i Hi.
  rewrite Hb2 by lia.
  destruct (Z.ltb_spec i len).
  - rewrite Z.mod_pow2_bits_low, Z.shiftr_spec by lia. cbn [andb].
    rewrite Hb by lia. replace (0 + len - 1 - i <? len) with true by lia. cbn [andb].
    f_equal; lia.
  - rewrite Z.mod_pow2_bits_high by lia. reflexivity.
Qed.

Lemma revbits_ok a len ofs :
  1 <= len -> 0 <= ofs -> len + ofs <= 128 ->
  exists r, revbitu a len ofs = Ok r /\
    revbits a len ofs = Ok (if Z.testbit a ofs then r - 2 ^ len else r).
Proof.
  intros Hl Ho Hlo. destruct (revbitu_ok a len ofs ltac:(lia) Ho Hlo) as (r & E & Hb).
  exists r. split; [exact E|]. unfold revbits. rewrite E. cbn [bind].
  replace (len - 1 <? 0) with false by lia. cbv zeta. rewrite Z.shiftl_1_l.
  pose proof (revbitu_nonneg a len ofs r ltac:(lia) Ho Hlo E) as Hr.
  assert (P : 2 ^ len = 2 * 2 ^ (len - 1)).
  { rewrite <- Z.pow_succ_r by lia. f_equal. lia. }
  pose proof (Hb (len - 1) ltac:(lia)) as Ht.
  replace (len - 1 <? len) with true in Ht by lia.
  replace (ofs + len - 1 - (len - 1)) with ofs in Ht by lia. cbn [andb] in Ht.
  rewrite <- Ht. f_equal.
  destruct (Z.testbit r (len - 1)) eqn:T.
  - apply Z.testbit_true in T; [|lia].
    assert (2 ^ (len - 1) <= r).
    { destruct (Z.ltb_spec r (2 ^ (len - 1))); [|lia]. rewrite Z.div_small in T by lia. discriminate. }
    replace r with (2 ^ (len - 1) + (r - 2 ^ (len - 1))) at 1 by lia.
    rewrite lxor_pow2_set by lia. lia.
  - apply Z.testbit_false in T; [|lia].
    assert (r < 2 ^ (len - 1)).
    { destruct (Z.ltb_spec r (2 ^ (len - 1))) as [|G]; [lia|].
      replace r with (1 * 2 ^ (len - 1) + (r - 2 ^ (len - 1))) in T by lia.
      rewrite Z.div_add_l, (Z.div_small (r - _)) in T by lia. discriminate. }
    rewrite lxor_pow2_clear by lia. lia.
Qed.

(** ** Encoding and packing *)
Lemma enc_length w v : length (enc w v) = w.
Proof. induction w; cbn [enc length]; auto. Qed.
Lemma zlen_enc w v : zlen (enc w v) = Z.of_nat w.
Proof. unfold zlen; now rewrite enc_length. Qed.

Lemma uval_enc w v : uval (enc w v) = v mod 2 ^ Z.of_nat w.
Proof.
  induction w as [|w IH]; [cbn; now rewrite Z.mod_1_r|].
  cbn [enc uval]. rewrite IH, zlen_enc.
  replace (Z.of_nat (S w)) with (Z.of_nat w + 1) by lia.
  rewrite Z.pow_add_r by lia. change (2 ^ 1) with 2.
  rewrite Z.rem_mul_r by lia.
  assert (Hbit : (v / 2 ^ Z.of_nat w) mod 2 = if Z.testbit v (Z.of_nat w) then 1 else 0).
  { rewrite Z.testbit_spec' || idtac. pose proof (Z.testbit_spec' v (Z.of_nat w)) as T.
    rewrite <- T by lia. destruct (Z.testbit v (Z.of_nat w)); reflexivity. }
  rewrite Hbit. destruct (Z.testbit v (Z.of_nat w)); lia.
Qed.

Lemma uval_enc_small w v : 0 <= v < 2 ^ Z.of_nat w -> uval (enc w v) = v.
Proof. intros H. rewrite uval_enc. now apply Z.mod_small. Qed.

Lemma sval_enc w v : (0 < w)%nat ->
  - 2 ^ (Z.of_nat w - 1) <= v < 2 ^ (Z.of_nat w - 1) -> sval (enc w v) = v.
Proof.
  intros Hw Hv. destruct w as [|w]; [lia|].
  replace (Z.of_nat (S w) - 1) with (Z.of_nat w) in Hv by lia.
  cbn [enc sval]. rewrite uval_enc, zlen_enc.
  set (p := 2 ^ Z.of_nat w) in *.
  assert (0 < p) by (unfold p; lia).
  destruct (Z.testbit v (Z.of_nat w)) eqn:E.
  - apply Z.testbit_true in E; [|lia]. fold p in E.
    assert (v < 0). { destruct (Z.ltb_spec v 0); [lia|]. rewrite Z.div_small in E by lia. discriminate. }
    replace v with (v + p + (-1) * p) at 1 by lia. rewrite Z.mod_add by lia.
    rewrite Z.mod_small by lia. lia.
  - apply Z.testbit_false in E; [|lia]. fold p in E.
    assert (0 <= v). { destruct (Z.ltb_spec v 0); [|lia].
      replace v with (v + p + (-1) * p) in E by lia. rewrite Z.div_add in E by lia.
      rewrite Z.div_small in E by lia. discriminate. }
    rewrite Z.mod_small by lia. lia.
Qed.

Lemma pack_byte_roundtrip a b c d e f g h :
  byte_bits (uval [a; b; c; d; e; f; g; h]) = [a; b; c; d; e; f; g; h].
Proof. destruct a, b, c, d, e, f, g, h; vm_compute; reflexivity. Qed.

Lemma pack_byte_ok l : zlen l = 8 -> byte_ok (uval l).
Proof. intros H. pose proof (uval_bound l) as U. rewrite H in U. exact U. Qed.

(** Number of padding bits added by [pack]. *)
Definition padlen (n : nat) : nat := ((8 - n mod 8) mod 8)%nat.

Lemma padlen_8 n : padlen (S (S (S (S (S (S (S (S n)))))))) = padlen n.
Proof.
  unfold padlen.
  replace (S (S (S (S (S (S (S (S n))))))))%nat with (n + 1 * 8)%nat by lia.
  now rewrite Nat.mod_add by lia.
Qed.

Lemma list8_ind {A} (P : list A -> Prop) :
  (forall l, (length l < 8)%nat -> P l) ->
  (forall a b c d e f g h r, P r -> P (a :: b :: c :: d :: e :: f :: g :: h :: r)) ->
  forall l, P l.
Proof.
  intros H0 H8 l. remember (length l) as n eqn:E.
  revert l E. induction n as [n IH] using lt_wf_ind. intros l E.
  destruct (le_lt_dec 8 (length l)) as [L|L]; [|auto].
  destruct l as [|a [|b [|c [|d [|e [|f [|g [|h r]]]]]]]]; cbn [length] in L; try lia.
  apply H8. apply (IH (length r)); [cbn [length] in E; lia|reflexivity].
Qed.

Lemma bits_of_pack l :
  bits_of (pack l) = l ++ repeat false (padlen (length l)).
Proof.
  induction l as [l L|a b c d e f g h r IH] using list8_ind.
  - destruct l as [|a [|b [|c [|d [|e [|f [|g [|h r]]]]]]]]; cbn [length] in L; try lia;
      cbn [pack bits_of flat_map]; rewrite ?pack_byte_roundtrip; reflexivity.
  - cbn [pack]. unfold bits_of in *; cbn [flat_map].
    rewrite pack_byte_roundtrip, IH. cbn [length]. rewrite padlen_8. reflexivity.
Qed.

Lemma pack_bytes_ok l : bytes_ok (pack l).
Proof.
  induction l as [l L|a b c d e f g h r IH] using list8_ind.
  - destruct l as [|a [|b [|c [|d [|e [|f [|g [|h r]]]]]]]]; cbn [length] in L; try lia;
      cbn [pack]; repeat constructor; apply pack_byte_ok; reflexivity.
  - cbn [pack]. constructor; [apply pack_byte_ok; reflexivity | exact IH].
Qed.

Lemma padlen_spec n : (padlen n < 8)%nat /\ exists k, (n + padlen n = 8 * k)%nat.
Proof.
  unfold padlen. split; [apply Nat.mod_upper_bound; lia|].
  pose proof (Nat.div_mod_eq n 8) as D. pose proof (Nat.mod_upper_bound n 8 ltac:(lia)) as U.
  set (q := (n / 8)%nat) in *. set (r := (n mod 8)%nat) in *. clearbody q r.
  destruct (Nat.eq_dec r 0) as [E|E].
  - subst r. exists q. cbn. lia.
  - rewrite (Nat.mod_small (8 - r)) by lia. exists (S q). lia.
Qed.

Lemma zlen_pack l : zlen (pack l) = (zlen l + 7) / 8.
Proof.
  pose proof (zlen_bits_of (pack l)) as H. rewrite bits_of_pack, zlen_app in H.
  unfold zlen in *. rewrite repeat_length in H.
  destruct (padlen_spec (length l)) as [P (k & K)]. lia.
Qed.
