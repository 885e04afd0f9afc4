(** * BaseTextProofs: messages 1007, 1008, 1033 and 1029. *)
From Verif Require Import PyBase PyDict PyFloat PyVal PyText BitsModel BitsSpec BitsProofs MessageSpec
  ReadProofs CleanProofs EphModel EphSpec EphProofs BaseModel BaseSpec TextProofs MsmTheorems BaseProofs.
Local Open Scope string_scope.
Local Open Scope list_scope.
Local Open Scope Z_scope.

Lemma carries_bits buf B : carries buf B ->
  exists rest, at_bits buf 24 (B ++ rest) /\ zlen buf = 6 + (zlen B + 7) / 8 /\
    exists payload crc, transport_frame buf payload crc.
Proof.
  intros C. pose proof (carries_length _ _ C) as L. destruct C as (payload & crc & pad & F & E & P).
  exists (pad ++ bits_of crc). split; [|split; [exact L|eauto]].
  destruct (frame_at _ _ _ F) as (A & _). now rewrite E, <- app_assoc in A.
Qed.

(** Conversely, bits found after the header of a frame of the right length. *)
Lemma bits_carries buf payload crc B rest : transport_frame buf payload crc ->
  at_bits buf 24 (B ++ rest) -> zlen buf = 6 + (zlen B + 7) / 8 -> carries buf B.
Proof.
  intros F A L. destruct (frame_at _ _ _ F) as (A' & _ & L' & _).
  destruct A as (_ & _ & _ & E), A' as (_ & _ & _ & E'). rewrite E in E'. clear E.
  assert (LB : zlen B <= 8 * zlen payload) by lia.
  exists payload, crc, (skipn (length B) (bits_of payload)). split; [exact F|].
  pose proof (zlen_bits_of payload) as ZP.
  assert (FB : firstn (length B) (bits_of payload) = B).
  { apply (f_equal (firstn (length B))) in E'.
    rewrite !firstn_app, firstn_all, Nat.sub_diag in E'. cbn [firstn] in E'. rewrite app_nil_r in E'.
    replace (length B - length (bits_of payload))%nat with O in E' by (unfold zlen in *; lia).
    cbn [firstn] in E'. rewrite app_nil_r in E'. now symmetry. }
  split; [rewrite <- FB at 1; symmetry; apply firstn_skipn|].
  unfold zlen in *. rewrite skipn_length. lia.
Qed.

Lemma zlen_octets s : zlen (octets s) = 8 * zlen s.
Proof.
  induction s as [|b s IH]; [reflexivity|]. unfold octets. cbn [flat_map]. fold (octets s).
  rewrite zlen_app, IH, zlen_enc, zlen_cons. lia.
Qed.
Lemma zlen_counted s : zlen (counted s) = 8 + 8 * zlen s.
Proof. unfold counted. rewrite zlen_app, zlen_enc, zlen_octets. lia. Qed.

Lemma read_loop_ok buf s : bytes_ok s -> forall a acc off rest, at_bits buf off (octets s ++ rest) ->
  for_each (zrange_n a (length s)) (acc, off)
     (fun '(symb, offset) _ =>
        v <- getbitu buf offset 8 ;; Ok (symb ++ py_hex v ++ [32], offset + 8))
  = Ok (acc ++ flat_map (fun b => py_hex b ++ [32]) s, off + 8 * zlen s) /\
  at_bits buf (off + 8 * zlen s) rest.
Proof.
  intros F. induction F as [|b s Hb Fs IH]; intros a acc off rest A.
  - cbn [length zrange_n for_each flat_map]. rewrite app_nil_r. change (zlen (@nil Z)) with 0.
    rewrite Z.mul_0_r, Z.add_0_r. split; [reflexivity|exact A].
  - unfold octets in A. cbn [flat_map] in A. fold (octets s) in A. rewrite <- app_assoc in A.
    destruct (at_u_small _ _ off 8 8 b _ A eq_refl eq_refl ltac:(lia)) as [E A'];
      [unfold fits_u; change (2 ^ Z.of_nat 8) with 256; exact Hb|].
    destruct (IH (a + 1) (acc ++ py_hex b ++ [32]) _ _ A') as [E' A''].
    cbn [length zrange_n for_each]. rewrite E. cbn [bind]. rewrite E'.
    rewrite zlen_cons. replace (off + 8 * (1 + zlen s)) with (off + 8 + 8 * zlen s) by lia.
    split; [|exact A'']. cbn [flat_map]. now rewrite <- !app_assoc.
Qed.

Lemma read_text_ok buf s off rest : bytes_ok s -> at_bits buf off (octets s ++ rest) ->
  read_text buf (zlen s) off = Ok (spaced (map hex_byte s), off + 8 * zlen s) /\
  at_bits buf (off + 8 * zlen s) rest.
Proof.
  intros F A. destruct (read_loop_ok buf s F 0 [] off rest A) as [E A']. split; [|exact A'].
  unfold read_text, zrange. replace (Z.to_nat (zlen s - 0)) with (length s) by (unfold zlen; lia).
  rewrite E. cbn [bind app]. now rewrite strip_listing.
Qed.

Lemma read_counted_ok buf ln n bs s off rest : string_ok s -> at_bits buf off (counted s ++ rest) ->
  read_counted buf ln n bs off =
    Ok (setattr (setattr bs ln (VInt (zlen s))) n (hex_listing s), off + 8 + 8 * zlen s, zlen s) /\
  at_bits buf (off + 8 + 8 * zlen s) rest.
Proof.
  intros (B & L) A. unfold counted in A. rewrite <- app_assoc in A.
  destruct (at_u_small _ _ off 8 8 (zlen s) _ A eq_refl eq_refl ltac:(lia)) as [E A'].
  { unfold fits_u. change (2 ^ Z.of_nat 8) with 256. pose proof (zlen_nonneg s). lia. }
  destruct (read_text_ok _ _ _ _ B A') as [E' A'']. unfold read_counted. rewrite E. cbn [bind].
  rewrite E'. cbn [bind]. split; [reflexivity|exact A''].
Qed.

Lemma read_loop_inv buf k : forall a acc off rest r, at_bits buf off rest ->
  for_each (zrange_n a k) (acc, off)
     (fun '(symb, offset) _ =>
        v <- getbitu buf offset 8 ;; Ok (symb ++ py_hex v ++ [32], offset + 8)) = Ok r ->
  exists s rest', rest = octets s ++ rest' /\ bytes_ok s /\ length s = k.
Proof.
  induction k as [|k IH]; intros a acc off rest r A E.
  - exists [], rest. repeat split; constructor.
  - cbn [zrange_n for_each] in E. apply bind_ok in E. destruct E as ([acc' off'] & E1 & E2).
    apply bind_ok in E1. destruct E1 as (v & Ev & E1). inversion E1; subst; clear E1.
    destruct (getbitu_inv _ _ _ _ _ A Ev) as (rest1 & -> & FV & _ & A1).
    destruct (IH _ _ _ _ _ A1 E2) as (s & rest' & -> & B & L).
    exists (v :: s), rest'. split; [|split].
    + unfold octets. cbn [flat_map]. now rewrite <- app_assoc.
    + apply bytes_ok_cons. split; [exact FV|exact B].
    + cbn [length]. lia.
Qed.

Lemma read_counted_inv buf ln n bs off rest r : at_bits buf off rest ->
  read_counted buf ln n bs off = Ok r ->
  exists s rest', rest = counted s ++ rest' /\ string_ok s /\
    r = (setattr (setattr bs ln (VInt (zlen s))) n (hex_listing s), off + 8 + 8 * zlen s, zlen s) /\
    at_bits buf (off + 8 + 8 * zlen s) rest'.
Proof.
  intros A E. pose proof E as E0. unfold read_counted in E. apply bind_ok in E.
  destruct E as (v & Ev & E). apply bind_ok in E. destruct E as ([t off'] & Et & E).
  destruct (getbitu_inv _ _ _ _ _ A Ev) as (rest1 & -> & FV & _ & A1).
  unfold fits_u in FV. change (2 ^ Z.of_nat (Z.to_nat 8)) with 256 in FV.
  unfold read_text in Et. apply bind_ok in Et. destruct Et as ([t' off''] & Et & _).
  unfold zrange in Et.
  destruct (read_loop_inv _ _ _ _ _ _ _ A1 Et) as (s & rest' & -> & B & L).
  assert (LS : zlen s = v) by (unfold zlen; lia). subst v.
  exists s, rest'. assert (OK : string_ok s) by (split; [exact B|lia]).
  assert (EC : enc (Z.to_nat 8) (zlen s) ++ octets s ++ rest' = counted s ++ rest')
    by (unfold counted; now rewrite <- app_assoc).
  split; [exact EC|]. rewrite EC in A.
  destruct (read_counted_ok buf ln n bs s off rest' OK A) as [R A']. split; [exact OK|].
  split; [congruence|exact A'].
Qed.

Lemma rs_cons buf a k w adv l o off :
  run_steps buf (step a k w adv :: l) (o, off) =
  (v <- read_bits k buf off w ;; run_steps buf l (setattr o a (VInt v), off + adv)).
Proof.
  unfold run_steps. cbn [for_each st_read st_width st_attr st_adv].
  destruct (read_bits k buf off w); reflexivity.
Qed.
Lemma rs_nil buf st : run_steps buf [] st = Ok st.
Proof. reflexivity. Qed.

(** ** Bare decoding *)
Definition text_num (m : text_msg) : Z :=
  match m with T1007 _ _ _ => 1007 | T1008 _ _ _ _ => 1008 | T1033 _ _ _ _ _ _ _ => 1033
             | T1029 _ _ _ _ _ => 1029 end.

Ltac number A E :=
  match type of A with
  | at_bits _ ?off (enc ?w ?v ++ _) =>
      let A' := fresh "A" in
      destruct (at_u_small _ _ off (Z.of_nat w) w v _ A eq_refl eq_refl ltac:(lia)
                  ltac:(first [assumption | (unfold fits_u; lia) | (vm_compute; split; congruence)]))
        as [E A']; clear A; rename A' into A;
      let w' := eval vm_compute in (Z.of_nat w) in change (Z.of_nat w) with w' in E, A
  end.

Local Opaque getbitu.
Lemma text_bare_ok buf m : text_ok m -> carries buf (text_bits m) ->
  base_decode_bare buf = Ok {| po_class := text_class m; po_attrs := text_attrs hex_listing m |}.
Proof.
  intros OK C. destruct (carries_bits _ _ C) as (rest & A & L & _).
  assert (LB := L). destruct m as [id d st|id d st s|id d st s r f rs|id mjd sec ch t];
    cbn [text_bits text_ok] in *; repeat rewrite <- app_assoc in A; repeat rewrite zlen_app in L;
    rewrite ?zlen_enc, ?zlen_counted in L; unfold base_decode_bare, base_get_msg_num.
  - destruct OK as (F1 & F2 & S1). number A E. rewrite E. cbn [bind].
    change (1007 =? 1005) with false. change (1007 =? 1006) with false. change (1007 =? 1007) with true.
    cbv beta iota. unfold decode10078_1033. rewrite E. cbn [bind].
    change (24 + 12) with 36 in *. number A E1. rewrite E1. cbn [bind].
    match goal with |- context [read_counted buf "descrLength" "descr" ?b _] =>
      destruct (read_counted_ok buf "descrLength" "descr" b d _ _ S1 A) as [E2 A2] end.
    rewrite E2. cbn [bind]. number A2 E3. rewrite E3. cbn [bind].
    replace (po_class _ =? "BaseAD")%string with true by reflexivity. cbv zeta.
    replace (40 + 8 * zlen d) with (36 + 12 + 8 + 8 * zlen d + 8 - 24) by lia.
    rewrite (proj2 (base_check_ok _ _)) by lia. reflexivity.
  - destruct OK as (F1 & F2 & S1 & S2). number A E. rewrite E. cbn [bind].
    change (1008 =? 1005) with false. change (1008 =? 1006) with false. change (1008 =? 1007) with false.
    change (1008 =? 1008) with true.
    cbv beta iota. unfold decode10078_1033. rewrite E. cbn [bind].
    change (1008 =? 1007) with false. change (1008 =? 1008) with true. cbv beta iota.
    change (24 + 12) with 36 in *. number A E1. rewrite E1. cbn [bind].
    match goal with |- context [read_counted buf "descrLength" "descr" ?b _] =>
      destruct (read_counted_ok buf "descrLength" "descr" b d _ _ S1 A) as [E2 A2] end.
    rewrite E2. cbn [bind]. number A2 E3. rewrite E3. cbn [bind].
    replace (po_class _ =? "BaseAD")%string with false by reflexivity. cbv zeta.
    match goal with |- context [read_counted buf "serialNumberLength" "serialNumber" ?b _] =>
      destruct (read_counted_ok buf "serialNumberLength" "serialNumber" b s _ _ S2 A2) as [E4 A4] end.
    rewrite E4. cbn [bind].
    replace (po_class _ =? "BaseADSN")%string with true by reflexivity.
    match goal with |- context [base_length_check ?a ?b] => replace a with b by lia end.
    rewrite (proj2 (base_check_ok _ _)) by lia. reflexivity.
  - destruct OK as (F1 & F2 & S1 & S2 & S3 & S4 & S5). number A E. rewrite E. cbn [bind].
    change (1033 =? 1005) with false. change (1033 =? 1006) with false. change (1033 =? 1007) with false.
    change (1033 =? 1008) with false. change (1033 =? 1033) with true.
    cbv beta iota. unfold decode10078_1033. rewrite E. cbn [bind].
    change (1033 =? 1007) with false. change (1033 =? 1008) with false. cbv beta iota.
    change (24 + 12) with 36 in *. number A E1. rewrite E1. cbn [bind].
    match goal with |- context [read_counted buf "descrLength" "descr" ?b _] =>
      destruct (read_counted_ok buf "descrLength" "descr" b d _ _ S1 A) as [E2 A2] end.
    rewrite E2. cbn [bind]. number A2 E3. rewrite E3. cbn [bind].
    replace (po_class _ =? "BaseAD")%string with false by reflexivity. cbv zeta.
    match goal with |- context [read_counted buf "serialNumberLength" "serialNumber" ?b _] =>
      destruct (read_counted_ok buf "serialNumberLength" "serialNumber" b s _ _ S2 A2) as [E4 A4] end.
    rewrite E4. cbn [bind].
    replace (po_class _ =? "BaseADSN")%string with false by reflexivity.
    match goal with |- context [read_counted buf "rcvDescriptorLength" "rcvDescriptor" ?b _] =>
      destruct (read_counted_ok buf "rcvDescriptorLength" "rcvDescriptor" b r _ _ S3 A4) as [E5 A5] end.
    rewrite E5. cbn [bind].
    match goal with |- context [read_counted buf "rcvFWVersionLength" "rcvFWVersion" ?b _] =>
      destruct (read_counted_ok buf "rcvFWVersionLength" "rcvFWVersion" b f _ _ S4 A5) as [E6 A6] end.
    rewrite E6. cbn [bind].
    match goal with |- context [read_counted buf "rcvSerNumLength" "rcvSerNum" ?b _] =>
      destruct (read_counted_ok buf "rcvSerNumLength" "rcvSerNum" b rs _ _ S5 A6) as [E7 A7] end.
    rewrite E7. cbn [bind].
    match goal with |- context [base_length_check ?a ?b] => replace a with b by lia end.
    rewrite (proj2 (base_check_ok _ _)) by lia. reflexivity.
  - destruct OK as (F1 & F2 & F3 & F4 & S1). number A E. rewrite E. cbn [bind].
    repeat match goal with |- context [1029 =? ?k] =>
      let v := eval vm_compute in (1029 =? k) in change (1029 =? k) with v end.
    cbv beta iota. unfold decode1029, steps1029.
    rewrite !rs_cons. cbn [read_bits]. rewrite E. cbn [bind]. rewrite !rs_cons. cbn [read_bits].
    change (24 + 12) with 36 in *. number A E1. rewrite E1. cbn [bind]. rewrite ?rs_cons. cbn [read_bits].
    number A E2. rewrite E2. cbn [bind]. rewrite ?rs_cons. cbn [read_bits].
    number A E3. rewrite E3. cbn [bind]. rewrite ?rs_cons. cbn [read_bits].
    number A E4. rewrite E4. cbn [bind]. rewrite rs_nil. cbn [bind].
    match goal with |- context [read_counted buf _ _ ?b _] =>
      destruct (read_counted_ok buf "unitsNum" "message" b t _ _ S1 A) as [E5 A5] end.
    rewrite E5. cbn [bind].
    match goal with |- context [base_length_check ?a ?b] => replace a with b by lia end.
    rewrite (proj2 (base_check_ok _ _)) by lia. reflexivity.
Qed.

(** Conversely, whatever is decoded is such a message. *)
Lemma length_inv nexp ndec n (bs o : pyobj) : (_ <- base_length_check nexp ndec n ;; Ok bs) = Ok o ->
  o = bs /\ ndec = nexp /\ n = 6 + (nexp + 7) / 8.
Proof.
  intros H. apply bind_ok in H. destruct H as (u & E & H). apply base_check_inv in E.
  split; [congruence|exact E].
Qed.

Lemma carries_intro buf payload crc B rest : transport_frame buf payload crc ->
  at_bits buf 24 rest -> (exists tl, rest = B ++ tl) -> zlen buf = 6 + (zlen B + 7) / 8 -> carries buf B.
Proof. intros F A (tl & ->) L. now apply (bits_carries _ payload crc B tl). Qed.

Ltac inv_u A E :=
  match type of E with
  | getbitu ?buf ?off ?len = Ok ?v =>
      let rest := fresh "rest" in let Q := fresh "Q" in let FV := fresh "FV" in let A' := fresh "A" in
      destruct (getbitu_inv _ _ _ _ _ A E) as (rest & Q & FV & _ & A')
  end.

Lemma text_bare_inv buf payload crc o n : transport_frame buf payload crc ->
  base_get_msg_num buf = Ok n -> In n [1007; 1008; 1033; 1029] -> base_decode_bare buf = Ok o ->
  exists m, text_ok m /\ carries buf (text_bits m).
Proof.
  intros F EN HI H. destruct (frame_at _ _ _ F) as (A0 & _ & LB & BO).
  set (rest0 := bits_of payload ++ bits_of crc) in *. clearbody rest0.
  unfold base_decode_bare in H. rewrite EN in H. cbn [bind] in H. unfold base_get_msg_num in EN.
  destruct (getbitu_inv _ _ _ _ _ A0 EN) as (rest1 & Q1 & _ & _ & A1).
  change (24 + 12) with 36 in A1. change (Z.to_nat 12) with 12%nat in Q1.
  assert (T : n = 1029 \/ (n = 1007 \/ n = 1008 \/ n = 1033)) by (cbn [In] in HI; lia).
  destruct T as [->|T].
  - (* 1029 *)
    repeat match type of H with context [1029 =? ?k] =>
      let v := eval vm_compute in (1029 =? k) in change (1029 =? k) with v in H end.
    cbv beta iota in H. unfold decode1029, steps1029 in H.
    rewrite rs_cons in H. cbn [read_bits] in H. rewrite EN in H. cbn [bind] in H.
    change (24 + 12) with 36 in H.
    apply bind_ok in H. destruct H as ([bs off] & H1 & H).
    rewrite rs_cons in H1. apply bind_ok in H1. destruct H1 as (id & E2 & H1). cbn [read_bits] in E2.
    rewrite rs_cons in H1. apply bind_ok in H1. destruct H1 as (mjd & E3 & H1). cbn [read_bits] in E3.
    rewrite rs_cons in H1. apply bind_ok in H1. destruct H1 as (sec & E4 & H1). cbn [read_bits] in E4.
    rewrite rs_cons in H1. apply bind_ok in H1. destruct H1 as (ch & E5 & H1). cbn [read_bits] in E5.
    rewrite rs_nil in H1. inversion H1; subst; clear H1.
    apply bind_ok in H. destruct H as ([[bs off] units] & E6 & H).
    destruct (getbitu_inv _ _ _ _ _ A1 E2) as (r2 & -> & F2 & _ & A2).
    destruct (getbitu_inv _ _ _ _ _ A2 E3) as (r3 & -> & F3 & _ & A3).
    destruct (getbitu_inv _ _ _ _ _ A3 E4) as (r4 & -> & F4 & _ & A4).
    destruct (getbitu_inv _ _ _ _ _ A4 E5) as (r5 & -> & F5 & _ & A5).
    destruct (read_counted_inv _ _ _ _ _ _ _ A5 E6) as (t & r6 & -> & S6 & ER & A6).
    assert (EU : units = zlen t) by congruence. subst units.
    apply length_inv in H. destruct H as (_ & _ & LN).
    exists (T1029 id mjd sec ch t). split; [cbn [text_ok]; tauto|].
    apply (carries_intro _ payload crc _ _ F A0).
    + exists r6. cbn [text_bits]. now rewrite <- !app_assoc.
    + rewrite LN. f_equal. f_equal. cbn [text_bits]. rewrite !zlen_app, !zlen_enc, zlen_counted. lia.
  - assert (HD : decode10078_1033 buf = Ok o).
    { destruct T as [->|[->|E3]]; [exact H|exact H|subst n; exact H]. }
    clear H. unfold decode10078_1033 in HD. rewrite EN in HD. cbn [bind] in HD.
    change (24 + 12) with 36 in HD.
    apply bind_ok in HD. destruct HD as (id & E2 & HD).
    apply bind_ok in HD. destruct HD as ([[bs3 off3] n3] & E3 & HD).
    apply bind_ok in HD. destruct HD as (st & E4 & HD).
    destruct (getbitu_inv _ _ _ _ _ A1 E2) as (r2 & -> & F2 & _ & A2).
    destruct (read_counted_inv _ _ _ _ _ _ _ A2 E3) as (d & r3 & -> & S3 & ER3 & A3).
    assert (En3 : n3 = zlen d) by congruence. assert (Eo3 : off3 = 36 + 12 + 8 + 8 * zlen d) by congruence.
    subst off3. destruct (getbitu_inv _ _ _ _ _ A3 E4) as (r4 & -> & F4 & _ & A4).
    match type of HD with (if ?b then _ else _) = _ => assert (EB : b = (n =? 1007)) end.
    { inversion ER3. destruct T as [->|[->|E9]]; [reflexivity|reflexivity|subst n; reflexivity]. }
    rewrite EB in HD. clear EB. destruct (n =? 1007) eqn:D7.
    + apply Z.eqb_eq in D7. subst n. apply length_inv in HD. destruct HD as (_ & _ & LN).
      exists (T1007 id d st). split; [cbn [text_ok]; tauto|].
      apply (carries_intro _ payload crc _ _ F A0).
      * exists r4. rewrite Q1. cbn [text_bits]. now rewrite <- !app_assoc.
      * rewrite LN. f_equal. f_equal. cbn [text_bits]. rewrite !zlen_app, !zlen_enc, zlen_counted. lia.
    + apply bind_ok in HD. destruct HD as ([[bs5 off5] n5] & E5 & HD).
      destruct (read_counted_inv _ _ _ _ _ _ _ A4 E5) as (s & r5 & -> & S5 & ER5 & A5).
      assert (En5 : n5 = zlen s) by congruence.
      assert (Eo5 : off5 = 36 + 12 + 8 + 8 * zlen d + 8 + 8 + 8 * zlen s) by congruence. subst off5.
      match type of HD with (if ?b then _ else _) = _ => assert (EB : b = (n =? 1008)) end.
      { inversion ER3. inversion ER5.
        destruct T as [E9|[E9|E9]]; [subst n; discriminate|subst n; subst; reflexivity|subst n; subst; reflexivity]. }
      rewrite EB in HD. clear EB. destruct (n =? 1008) eqn:D8.
      * apply Z.eqb_eq in D8. subst n. apply length_inv in HD. destruct HD as (_ & _ & LN).
        exists (T1008 id d st s). split; [cbn [text_ok]; tauto|].
        apply (carries_intro _ payload crc _ _ F A0).
        -- exists r5. rewrite Q1. cbn [text_bits]. now rewrite <- !app_assoc.
        -- rewrite LN. f_equal. f_equal. cbn [text_bits].
           rewrite !zlen_app, !zlen_enc, !zlen_counted. lia.
      * assert (E33 : n = 1033) by lia. subst n.
        apply bind_ok in HD. destruct HD as ([[bs6 off6] n6] & E6 & HD).
        destruct (read_counted_inv _ _ _ _ _ _ _ A5 E6) as (r & r6 & -> & S6 & ER6 & A6).
        assert (En6 : n6 = zlen r) by congruence.
        assert (Eo6 : off6 = 36 + 12 + 8 + 8 * zlen d + 8 + 8 + 8 * zlen s + 8 + 8 * zlen r) by congruence.
        subst off6.
        apply bind_ok in HD. destruct HD as ([[bs7 off7] n7] & E7 & HD).
        destruct (read_counted_inv _ _ _ _ _ _ _ A6 E7) as (f & r7 & -> & S7 & ER7 & A7).
        assert (En7 : n7 = zlen f) by congruence.
        assert (Eo7 : off7 = 36 + 12 + 8 + 8 * zlen d + 8 + 8 + 8 * zlen s + 8 + 8 * zlen r + 8 + 8 * zlen f) by congruence.
        subst off7.
        apply bind_ok in HD. destruct HD as ([[bs8 off8] n8] & E8 & HD).
        destruct (read_counted_inv _ _ _ _ _ _ _ A7 E8) as (rs & r8 & -> & S8 & ER8 & A8).
        assert (En8 : n8 = zlen rs) by congruence.
        cbv zeta in HD. apply length_inv in HD. destruct HD as (_ & _ & LN).
        exists (T1033 id d st s r f rs). split; [cbn [text_ok]; tauto|].
        apply (carries_intro _ payload crc _ _ F A0).
        -- exists r8. rewrite Q1. cbn [text_bits]. now rewrite <- !app_assoc.
        -- rewrite LN. f_equal. f_equal. cbn [text_bits].
           rewrite !zlen_app, !zlen_enc, !zlen_counted. lia.
Qed.

(** ** Scaled decoding *)
Lemma text_of_listing s : bytes_ok s -> s <> [] ->
  text_of (hex_listing s) = (t <- utf8_decode s ;; Ok (VStr t)).
Proof.
  intros B NE. unfold hex_listing, text_of. rewrite split_listing by assumption.
  rewrite ints_of_listing by assumption. cbn [bind]. rewrite py_bytes_ok by assumption. reflexivity.
Qed.

Definition good_text (s : list Z) : Prop := s <> [] /\ exists t, unicode t /\ s = utf8 t.
Definition show_text (s : list Z) : pyval :=
  match utf8_decode s with Ok t => VStr t | Err _ => VNone end.

Lemma text_of_good s : good_text s -> text_of (hex_listing s) = Ok (show_text s) /\
  exists t, unicode t /\ s = utf8 t /\ show_text s = VStr t.
Proof.
  intros (NE & t & U & E). assert (B : bytes_ok s) by (rewrite E; now apply utf8_bytes).
  rewrite (text_of_listing _ B NE). unfold show_text.
  assert (D : utf8_decode s = Ok t) by (rewrite E; now apply utf8_decode_encode).
  rewrite D. cbn [bind]. split; [reflexivity|]. exists t. auto.
Qed.
Lemma text_of_ok_inv s v : bytes_ok s -> text_of (hex_listing s) = Ok v -> good_text s.
Proof.
  intros B H. destruct s as [|b s]; [discriminate|].
  rewrite text_of_listing in H by (assumption || discriminate).
  apply bind_ok in H. destruct H as (t & E & _). apply utf8_decode_iff in E. destruct E as [E U].
  split; [discriminate|eauto].
Qed.

(** Scaling converts the strings one after another. *)
Lemma text_scale m : text_ok m ->
  base_scale {| po_class := text_class m; po_attrs := text_attrs hex_listing m |} =
  match m with
  | T1007 id d st =>
      d' <- text_of (hex_listing d) ;;
      Ok {| po_class := "BaseAD"; po_attrs := [("msgNum", VInt 1007); ("bsID", VInt id);
        ("descrLength", VInt (zlen d)); ("descr", d'); ("setupID", VInt st)] |}
  | T1008 id d st s =>
      d' <- text_of (hex_listing d) ;; s' <- text_of (hex_listing s) ;;
      Ok {| po_class := "BaseADSN"; po_attrs := [("msgNum", VInt 1008); ("bsID", VInt id);
        ("descrLength", VInt (zlen d)); ("descr", d'); ("setupID", VInt st);
        ("serialNumberLength", VInt (zlen s)); ("serialNumber", s')] |}
  | T1033 id d st s r f rs =>
      d' <- text_of (hex_listing d) ;; s' <- text_of (hex_listing s) ;;
      r' <- text_of (hex_listing r) ;; f' <- text_of (hex_listing f) ;;
      rs' <- text_of (hex_listing rs) ;;
      Ok {| po_class := "BaseADSNRC"; po_attrs := [("msgNum", VInt 1033); ("bsID", VInt id);
        ("descrLength", VInt (zlen d)); ("descr", d'); ("setupID", VInt st);
        ("serialNumberLength", VInt (zlen s)); ("serialNumber", s');
        ("rcvDescriptorLength", VInt (zlen r)); ("rcvDescriptor", r');
        ("rcvFWVersionLength", VInt (zlen f)); ("rcvFWVersion", f');
        ("rcvSerNumLength", VInt (zlen rs)); ("rcvSerNum", rs')] |}
  | T1029 id mjd sec ch t =>
      t' <- text_of (hex_listing t) ;;
      Ok {| po_class := "BaseTS"; po_attrs := [("msgNum", VInt 1029); ("bsID", VInt id);
        ("modifiedJulianDay", VInt mjd); ("daySec", VInt sec); ("charNum", VInt ch);
        ("unitsNum", VInt (zlen t)); ("message", t')] |}
  end.
Proof.
  intros _. destruct m as [id d st|id d st s|id d st s r f rs|id mjd sec ch t];
    unfold base_scale, scale10078_1033, scale1029, set_text, getattr, setattr;
    cbn -[text_of hex_listing zlen];
    repeat match goal with |- context [text_of ?x] =>
      destruct (text_of x); cbn -[text_of hex_listing zlen]; try reflexivity end.
Qed.

Theorem text_scaled_ok buf m : text_ok m -> carries buf (text_bits m) ->
  Forall good_text (text_strings m) ->
  base_decode false buf = Ok {| po_class := text_class m; po_attrs := text_attrs show_text m |}.
Proof.
  intros OK C G. unfold base_decode. rewrite (text_bare_ok _ _ OK C). cbn [bind].
  rewrite (text_scale _ OK).
  destruct m as [id d st|id d st s|id d st s r f rs|id mjd sec ch t]; cbn [text_strings] in G;
    repeat match goal with G : Forall _ (_ :: _) |- _ => inversion G; subst; clear G end;
    repeat match goal with H : good_text ?x |- _ => rewrite (proj1 (text_of_good _ H)); clear H end;
    reflexivity.
Qed.

Theorem text_scaled_inv buf m o : text_ok m -> carries buf (text_bits m) ->
  base_decode false buf = Ok o -> Forall good_text (text_strings m).
Proof.
  intros OK C H. unfold base_decode in H. rewrite (text_bare_ok _ _ OK C) in H. cbn [bind] in H.
  rewrite (text_scale _ OK) in H.
  destruct m as [id d st|id d st s|id d st s r f rs|id mjd sec ch t]; cbn [text_strings text_ok] in *;
    unfold string_ok in OK;
    repeat match type of H with (bind (text_of _) _) = Ok _ =>
      let v := fresh "v" in let E := fresh "E" in
      apply bind_ok in H; destruct H as (v & E & H) end;
    repeat (apply Forall_cons; [eapply text_of_ok_inv; [|eassumption]; tauto|]); apply Forall_nil.
Qed.
