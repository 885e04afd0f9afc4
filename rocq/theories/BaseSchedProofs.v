(** * BaseSchedProofs: messages 1013 and 1230. *)
From Coq Require Import Reals FinFun.
From Flocq Require Import Core.
From Verif Require Import PyBase PyDict PyFloat PyVal PyText BitsModel BitsSpec BitsProofs MessageSpec
  ReadProofs CleanProofs FloatProofs EphModel EphSpec EphProofs EphTheorems BaseModel BaseSpec
  TextProofs MsmTheorems BaseProofs BaseTextProofs.
Local Open Scope string_scope.
Local Open Scope list_scope.
Local Open Scope Z_scope.
Local Opaque getbitu.

(** ** 1013 *)
Definition an_pair (a : announcement) : pyval * pyval := (VInt (an_sync a), VInt (an_period a)).
Definition sched (l : list announcement) (d : list (Z * (pyval * pyval))) : list (Z * (pyval * pyval)) :=
  fold_left (fun d a => zset d (an_id a) (an_pair a)) l d.
Notation sched_body buf :=
  (fun '(d, offset) (_ : Z) =>
        ID <- getbitu buf offset 12 ;;
        isPeriodic <- getbitu buf (offset + 12) 1 ;;
        period <- getbitu buf (offset + 13) 16 ;;
        Ok (zset d ID (VInt isPeriodic, VInt period), offset + 29)).

Lemma zlen_an a : zlen (an_bits a) = 29.
Proof. unfold an_bits. rewrite !zlen_app, !zlen_enc. reflexivity. Qed.
Lemma zlen_ans l : zlen (flat_map an_bits l) = 29 * zlen l.
Proof.
  induction l as [|a l IH]; [reflexivity|]. cbn [flat_map]. rewrite zlen_app, zlen_an, IH, zlen_cons. lia.
Qed.

Lemma sched_loop_ok buf l : Forall an_ok l -> forall a d off rest,
  at_bits buf off (flat_map an_bits l ++ rest) ->
  for_each (zrange_n a (length l)) (d, off) (sched_body buf) = Ok (sched l d, off + 29 * zlen l).
Proof.
  intros F. induction F as [|x l (H1 & H2 & H3) Fl IH]; intros a d off rest A.
  - cbn. f_equal. f_equal. lia.
  - cbn [flat_map] in A. unfold an_bits at 1 in A. rewrite <- !app_assoc in A.
    number A G1. number A E2.
    destruct (at_u_small _ _ (off + 13) 16 16 _ _ A ltac:(lia) eq_refl ltac:(lia) H3) as [E3 A3].
    cbn [length zrange_n for_each]. rewrite G1. cbn [bind]. rewrite E2. cbn [bind]. rewrite E3. cbn [bind].
    replace (off + 12 + 1 + 16) with (off + 29) in A3 by lia.
    rewrite (IH _ _ _ _ A3), zlen_cons. unfold sched. cbn [fold_left]. f_equal. f_equal. lia.
Qed.

Lemma sched_loop_inv buf k : forall a d off rest r, at_bits buf off rest ->
  for_each (zrange_n a k) (d, off) (sched_body buf) = Ok r ->
  exists l rest', rest = flat_map an_bits l ++ rest' /\ Forall an_ok l /\ length l = k.
Proof.
  induction k as [|k IH]; intros a d off rest r A H.
  - exists [], rest. repeat split. constructor.
  - cbn [zrange_n for_each] in H. apply bind_ok in H. destruct H as ([d' off'] & E & H).
    apply bind_ok in E. destruct E as (v1 & G1 & E). apply bind_ok in E. destruct E as (v2 & E2 & E).
    apply bind_ok in E. destruct E as (v3 & E3 & E). inversion E; subst; clear E.
    destruct (getbitu_inv _ _ _ _ _ A G1) as (r1 & -> & F1 & _ & A1).
    destruct (getbitu_inv _ _ _ _ _ A1 E2) as (r2 & -> & F2 & _ & A2).
    replace (off + 13) with (off + 12 + 1) in E3 by lia.
    destruct (getbitu_inv _ _ _ _ _ A2 E3) as (r3 & -> & F3 & _ & A3).
    replace (off + 12 + 1 + 16) with (off + 29) in A3 by lia.
    destruct (IH _ _ _ _ _ A3 H) as (l & rest' & -> & Fl & Ll).
    exists ({| an_id := v1; an_sync := v2; an_period := v3 |} :: l), rest'. split; [|split].
    + cbn [flat_map]. unfold an_bits at 2. cbn [an_id an_sync an_period]. now rewrite <- !app_assoc.
    + constructor; [|exact Fl]. split; [exact F1|split; [exact F2|exact F3]].
    + cbn [length]. lia.
Qed.

Definition sp_object (id mjd sec nm leap : Z) (d : pyval) : pyobj :=
  {| po_class := "BaseSP"; po_attrs :=
     [("msgNum", VInt 1013); ("bsID", VInt id); ("modifiedJulianDay", VInt mjd);
      ("daySec", VInt sec); ("Nm", VInt nm); ("leapSec", VInt leap); ("shedule", d)] |}.

Lemma sp_bare_ok buf id mjd sec leap l : sp_ok id mjd sec (zlen l) leap l -> l <> [] ->
  carries buf (sp_bits id mjd sec (zlen l) leap l) ->
  base_decode_bare buf = Ok (sp_object id mjd sec (zlen l) leap (vdict_shedule (sched l []))).
Proof.
  intros (F1 & F2 & F3 & F4 & F5 & FL) NE C.
  destruct (carries_bits _ _ C) as (rest & A & L & _).
  unfold sp_bits in A, L. rewrite <- !app_assoc in A. rewrite !zlen_app, !zlen_enc, zlen_ans in L.
  number A E. unfold base_decode_bare, base_get_msg_num. rewrite E. cbn [bind].
  repeat match goal with |- context [1013 =? ?k] =>
      let v := eval vm_compute in (1013 =? k) in change (1013 =? k) with v end.
  cbv beta iota. unfold decode1013, steps1013.
  rewrite !rs_cons. cbn [read_bits]. rewrite E. cbn [bind]. rewrite !rs_cons. cbn [read_bits].
  number A G1. rewrite G1. cbn [bind]. rewrite !rs_cons. cbn [read_bits].
  number A E2. rewrite E2. cbn [bind]. rewrite !rs_cons. cbn [read_bits].
  number A E3. rewrite E3. cbn [bind]. rewrite !rs_cons. cbn [read_bits].
  number A E4. rewrite E4. cbn [bind]. rewrite !rs_cons. cbn [read_bits].
  number A E5. rewrite E5. cbn [bind]. rewrite rs_nil. cbn [bind].
  match goal with |- context [getattr ?o "Nm"] => replace (getattr o "Nm") with (@Ok pyval (VInt (zlen l))) by reflexivity end.
  cbn [bind]. assert (NZ : zlen l <> 0) by (destruct l; [congruence|rewrite zlen_cons; pose proof (zlen_nonneg l); lia]).
  replace (zlen l =? 0) with false by lia. cbn [negb].
  unfold zrange. replace (Z.to_nat (zlen l - 0)) with (length l) by (unfold zlen; lia).
  rewrite (sched_loop_ok _ _ FL _ _ _ _ A). cbn [bind].
  match goal with |- context [base_length_check ?a ?b] => replace a with b by lia end.
  rewrite (proj2 (base_check_ok _ _)) by lia. reflexivity.
Qed.

Lemma sp_bare_inv buf payload crc o : transport_frame buf payload crc ->
  base_get_msg_num buf = Ok 1013 -> base_decode_bare buf = Ok o ->
  exists id mjd sec leap l, sp_ok id mjd sec (zlen l) leap l /\ l <> [] /\
    carries buf (sp_bits id mjd sec (zlen l) leap l).
Proof.
  intros F EN H. destruct (frame_at _ _ _ F) as (A0 & _ & LB & BO).
  set (rest0 := bits_of payload ++ bits_of crc) in *. clearbody rest0.
  unfold base_decode_bare in H. rewrite EN in H. cbn [bind] in H. unfold base_get_msg_num in EN.
  destruct (getbitu_inv _ _ _ _ _ A0 EN) as (rest1 & Q1 & _ & _ & A1).
  change (24 + 12) with 36 in A1. change (Z.to_nat 12) with 12%nat in Q1.
  repeat match type of H with context [1013 =? ?k] =>
      let v := eval vm_compute in (1013 =? k) in change (1013 =? k) with v in H end.
  cbv beta iota in H. unfold decode1013, steps1013 in H.
  rewrite rs_cons in H. cbn [read_bits] in H. rewrite EN in H. cbn [bind] in H.
  change (24 + 12) with 36 in H.
  apply bind_ok in H. destruct H as ([bs off] & H1 & H).
  rewrite rs_cons in H1. apply bind_ok in H1. destruct H1 as (id & E2 & H1). cbn [read_bits] in E2.
  rewrite rs_cons in H1. apply bind_ok in H1. destruct H1 as (mjd & E3 & H1). cbn [read_bits] in E3.
  rewrite rs_cons in H1. apply bind_ok in H1. destruct H1 as (sec & E4 & H1). cbn [read_bits] in E4.
  rewrite rs_cons in H1. apply bind_ok in H1. destruct H1 as (nm & E5 & H1). cbn [read_bits] in E5.
  rewrite rs_cons in H1. apply bind_ok in H1. destruct H1 as (leap & E6 & H1). cbn [read_bits] in E6.
  rewrite rs_nil in H1. inversion H1; subst bs off; clear H1.
  match type of H with context [getattr ?o "Nm"] => replace (getattr o "Nm") with (@Ok pyval (VInt nm)) in H by reflexivity end.
  cbn [bind] in H. apply bind_ok in H. destruct H as ([d off] & E7 & H). apply length_inv in H.
  destruct H as (_ & LO & LN).
  destruct (getbitu_inv _ _ _ _ _ A1 E2) as (r2 & -> & F2 & _ & A2).
  destruct (getbitu_inv _ _ _ _ _ A2 E3) as (r3 & -> & F3 & _ & A3).
  destruct (getbitu_inv _ _ _ _ _ A3 E4) as (r4 & -> & F4 & _ & A4).
  destruct (getbitu_inv _ _ _ _ _ A4 E5) as (r5 & -> & F5 & _ & A5).
  destruct (getbitu_inv _ _ _ _ _ A5 E6) as (r6 & -> & F6 & _ & A6).
  unfold fits_u in F5. change (2 ^ Z.of_nat (Z.to_nat 5)) with 32 in F5.
  destruct (nm =? 0) eqn:NZ; cbn [negb] in *.
  - (* the count taken from the length is never consistent with it *)
    exfalso. pose proof (zlen_nonneg payload). clear - LN LB H. 
    destruct (Z.eq_dec ((8 * zlen buf - 70) / 29) (-1)) as [E|E]; [lia|]. lia.
  - unfold zrange in E7.
    destruct (sched_loop_inv _ _ _ _ _ _ _ A6 E7) as (l & r7 & -> & FL & LL).
    assert (LZ : zlen l = nm) by (unfold zlen; lia). subst nm.
    exists id, mjd, sec, leap, l. split; [|split].
    + repeat split; try assumption; try apply F2; try apply F3; try apply F4; try apply F6; cbn; lia.
    + intros ->. discriminate.
    + apply (carries_intro _ payload crc _ _ F A0).
      * exists r7. rewrite Q1. unfold sp_bits. now rewrite <- !app_assoc.
      * rewrite LN. f_equal. f_equal. unfold sp_bits. rewrite !zlen_app, !zlen_enc, zlen_ans. lia.
Qed.

Lemma announced_snoc l a id :
  announced (l ++ [a]) id = if an_id a =? id then Some a else announced l id.
Proof. unfold announced. rewrite rev_app_distr. reflexivity. Qed.

Lemma zset_keys {V} (d : list (Z * V)) k v x : In x (map fst (zset d k v)) <-> x = k \/ In x (map fst d).
Proof.
  induction d as [|[k' v'] d IH]; unfold zset in *; cbn [dset map fst In].
  - intuition congruence.
  - destruct (k =? k') eqn:E; cbn [map fst In].
    + apply Z.eqb_eq in E. subst. intuition congruence.
    + rewrite IH. tauto.
Qed.
Lemma zset_nodup {V} (d : list (Z * V)) k v : NoDup (map fst d) -> NoDup (map fst (zset d k v)).
Proof.
  induction d as [|[k' v'] d IH]; unfold zset in *; cbn [dset map fst]; intros N.
  - constructor; [tauto|constructor].
  - inversion N as [|? ? NI N']; subst. destruct (k =? k') eqn:E; cbn [map fst].
    + now constructor.
    + constructor; [|now apply IH]. intros X. apply (zset_keys d k v) in X.
      destruct X as [->|X]; [rewrite Z.eqb_refl in E; discriminate|tauto].
Qed.

Lemma sched_spec l : NoDup (map fst (sched l [])) /\
  forall id, zget (sched l []) id = option_map an_pair (announced l id).
Proof.
  induction l as [|a l IH] using rev_ind.
  - split; [constructor|reflexivity].
  - unfold sched in *. rewrite fold_left_app. cbn [fold_left]. destruct IH as [N G]. split.
    + now apply zset_nodup.
    + intros id. rewrite announced_snoc. destruct (an_id a =? id) eqn:E.
      * apply Z.eqb_eq in E. subst id. unfold zget, zset. rewrite (dget_dset_same Z.eqb z_eqb_spec). reflexivity.
      * unfold zget, zset. rewrite (dget_dset_other Z.eqb z_eqb_spec) by lia. apply G.
Qed.

Lemma schedule_lift l (f : Z * (pyval * pyval) -> pyval * pyval) (show : announcement -> pyval -> Prop) :
  (forall id a, announced l id = Some a ->
     exists v, f (id, an_pair a) = (VInt id, v) /\ show a v) ->
  schedule_of show l (VDict (map f (sched l []))).
Proof.
  intros H. destruct (sched_spec l) as [N G].
  assert (IN : forall k p, In (k, p) (sched l []) -> exists a, announced l k = Some a /\ p = an_pair a).
  { intros k p HI. pose proof (In_dget Z.eqb z_eqb_spec _ _ _ N HI) as E. fold (@zget (pyval * pyval)) in E.
    rewrite G in E. destruct (announced l k) as [a|]; [|discriminate]. inversion E. eauto. }
  exists (map f (sched l [])). split; [reflexivity|]. split; [|split].
  - rewrite map_map. rewrite (map_ext_in _ (fun x => VInt (fst x))).
    + rewrite <- map_map. apply FinFun.Injective_map_NoDup; [|exact N]. intros a b X. congruence.
    + intros [k p] HI. destruct (IN _ _ HI) as (a & E & ->). destruct (H _ _ E) as (v & -> & _). reflexivity.
  - intros k v HI. apply in_map_iff in HI. destruct HI as ([k' p] & E & HI).
    destruct (IN _ _ HI) as (a & EA & ->). destruct (H _ _ EA) as (v' & E' & S). rewrite E' in E.
    inversion E; subst. eauto.
  - intros id a EA. destruct (H _ _ EA) as (v & E & S). exists v. rewrite <- E. apply in_map.
    apply (dget_In Z.eqb z_eqb_spec). fold (@zget (pyval * pyval)). rewrite G, EA. reflexivity.
Qed.

Lemma tenths v : Z.abs v < 2 ^ 38 -> reports (Decimal 1 1) v (VFloat (f_mul (f_of_int v) (dec_lit 1 1))).
Proof.
  intros B. change (2 ^ 38) with 274877906944 in B.
  assert (B40 : Z.abs v <= 2 ^ 40) by (change (2 ^ 40) with 1099511627776; lia).
  destruct (dec_reports 1 1 v ltac:(lia) ltac:(lia) ltac:(vm_compute; congruence) ltac:(vm_compute; congruence) B40) as (r & V & E).
  eexists. exists r. split; [reflexivity|]. split; [exact V|exact E].
Qed.
Lemma fifths v : Z.abs v < 2 ^ 38 -> reports (Decimal 2 1) v (VFloat (f_mul (f_of_int v) (dec_lit 2 1))).
Proof.
  intros B. change (2 ^ 38) with 274877906944 in B.
  assert (B40 : Z.abs v <= 2 ^ 40) by (change (2 ^ 40) with 1099511627776; lia).
  destruct (dec_reports 2 1 v ltac:(lia) ltac:(lia) ltac:(vm_compute; congruence) ltac:(vm_compute; congruence) B40) as (r & V & E).
  eexists. exists r. split; [reflexivity|]. split; [exact V|exact E].
Qed.

Definition scale_entry (x : Z * (pyval * pyval)) : pyval * pyval :=
  let '(k, (a, b)) := x in
  (VInt k, VTuple [is_one a; match b with VInt z => VFloat (f_mul (f_of_int z) (dec_lit 1 1)) | _ => b end]).

Lemma sched_ints l d : Forall (fun x => exists a b, snd x = (VInt a, VInt b)) d ->
  Forall (fun x : Z * (pyval * pyval) => exists a b, snd x = (VInt a, VInt b)) (sched l d).
Proof.
  revert d. induction l as [|a l IH]; intros d F; [exact F|]. unfold sched. cbn [fold_left]. apply IH.
  induction F as [|[k v] d H F IHd]; unfold zset; cbn [dset].
  - constructor; [|constructor]. unfold an_pair. cbn [snd]. eauto.
  - destruct (an_id a =? k); constructor; try assumption. unfold an_pair. cbn [snd]. eauto.
Qed.

Lemma sp_scale id mjd sec nm leap l :
  base_scale (sp_object id mjd sec nm leap (vdict_shedule (sched l []))) =
  Ok (sp_object id mjd sec nm leap (VDict (map scale_entry (sched l [])))).
Proof.
  unfold base_scale. cbn -[sched vdict_shedule scale1013]. unfold scale1013, sp_object.
  replace (getattr _ _) with (@Ok pyval (vdict_shedule (sched l []))) by reflexivity.
  cbn [bind]. unfold vdict_shedule.
  match goal with |- (bind (map_res ?f ?d) _) = _ => replace (map_res f d) with (Ok (map scale_entry (sched l []))) end.
  - reflexivity.
  - pose proof (sched_ints l [] ltac:(constructor)) as F. symmetry.
    induction F as [|[k v] d (a & b & E) F IH]; [reflexivity|]. cbn [snd] in E. subst v.
    cbn [map map_res times_lit bind]. rewrite IH. reflexivity.
Qed.

Lemma sp_bare_schedule l : schedule_of bare_announcement l (vdict_shedule (sched l [])).
Proof.
  unfold vdict_shedule. apply schedule_lift. intros id a E. eexists. split; [reflexivity|reflexivity].
Qed.
Lemma sp_scaled_schedule l : Forall an_ok l ->
  schedule_of scaled_announcement l (VDict (map scale_entry (sched l []))).
Proof.
  intros F. apply schedule_lift. intros id a E. unfold an_pair, scale_entry.
  eexists. split; [reflexivity|]. exists (VFloat (f_mul (f_of_int (an_period a)) (dec_lit 1 1))).
  split; [reflexivity|]. apply tenths. unfold announced in E. apply find_some in E. destruct E as [E _].
  apply in_rev in E. rewrite Forall_forall in F. destruct (F _ E) as (_ & _ & P).
  unfold fits_u in P. change (2 ^ Z.of_nat 16) with 65536 in P. lia.
Qed.

(** ** 1230 *)
Definition b2z (b : bool) : Z := if b then 1 else 0.
Lemma mask_bits p1 p2 p3 p4 :
  [p1; p2; p3; p4] = enc 4 (8 * b2z p1 + 4 * b2z p2 + 2 * b2z p3 + b2z p4).
Proof. destruct p1, p2, p3, p4; reflexivity. Qed.
Lemma mask_split v : fits_u 4 v -> exists p1 p2 p3 p4, v = 8 * b2z p1 + 4 * b2z p2 + 2 * b2z p3 + b2z p4.
Proof.
  intros F. unfold fits_u in F. change (2 ^ Z.of_nat 4) with 16 in F.
  exists (8 <=? v), (4 <=? v mod 8), (2 <=? v mod 4), (1 <=? v mod 2). unfold b2z.
  destruct (8 <=? v) eqn:?, (4 <=? v mod 8) eqn:?, (2 <=? v mod 4) eqn:?, (1 <=? v mod 2) eqn:?; lia.
Qed.

Definition glbs_object (id c : Z) (b : biases) : pyobj :=
  {| po_class := "BaseGLBS"; po_attrs :=
     [("msgNum", VInt 1230); ("bsID", VInt id); ("isCorrected", VInt c);
      ("validity", validity_of (fun p => VInt (b2z p)) b);
      ("correction", VDict (map (fun '(n, o) => (vstr n, VInt (value_or_0 o))) (bias_list b)))] |}.

Ltac signed A E :=
  match type of A with
  | at_bits _ ?off (enc ?w ?v ++ _) =>
      let A' := fresh "A" in
      destruct (at_s _ _ off (Z.of_nat w) w v _ A eq_refl eq_refl ltac:(lia) ltac:(assumption))
        as [E A']; clear A; rename A' into A;
      let w' := eval vm_compute in (Z.of_nat w) in change (Z.of_nat w) with w' in E, A
  end.

Local Opaque getbits.
Lemma zlen_glbs id c rsv b : zlen (glbs_bits id c rsv b) =
  32 + 16 * (b2z (present (b_l1ca b)) + b2z (present (b_l1p b)) + b2z (present (b_l2ca b)) + b2z (present (b_l2p b))).
Proof.
  destruct b as [[|] [|] [|] [|]]; unfold glbs_bits, bias_list;
    cbn [b_l1ca b_l1p b_l2ca b_l2p flat_map opt_enc present b2z]; rewrite !zlen_app, !zlen_enc; reflexivity.
Qed.

Notation mask_body buf validity :=
  (fun '(val, cor, offset, N) '(mask, name) =>
        if negb (Z.land validity mask =? 0) then
          c <- getbits buf offset 16 ;;
          Ok (sset val name 1, sset cor name c, offset + 16, N + 1)
        else Ok (val, cor, offset, N)).
Lemma mask_on buf validity mask name l val cor offset N c :
  Z.land validity mask <> 0 -> getbits buf offset 16 = Ok c ->
  for_each ((mask, name) :: l) (val, cor, offset, N) (mask_body buf validity) =
  for_each l (sset val name 1, sset cor name c, offset + 16, N + 1) (mask_body buf validity).
Proof.
  intros M G. cbn [for_each]. replace (Z.land validity mask =? 0) with false by lia. cbn [negb].
  rewrite G. reflexivity.
Qed.
Lemma mask_off buf validity mask name l val cor offset N :
  Z.land validity mask = 0 ->
  for_each ((mask, name) :: l) (val, cor, offset, N) (mask_body buf validity) =
  for_each l (val, cor, offset, N) (mask_body buf validity).
Proof. intros M. cbn [for_each]. now rewrite M. Qed.

Lemma glbs_bare_ok buf id c rsv b : glbs_ok id c b -> carries buf (glbs_bits id c rsv b) ->
  base_decode_bare buf = Ok (glbs_object id c b).
Proof.
  intros (F1 & F2 & B1 & B2 & B3 & B4) C.
  destruct (carries_bits _ _ C) as (rest & A & L & _). rewrite zlen_glbs in L.
  unfold glbs_bits in A. rewrite mask_bits in A. rewrite <- !app_assoc in A.
  number A E. unfold base_decode_bare, base_get_msg_num. rewrite E. cbn [bind].
  repeat match goal with |- context [1230 =? ?k] =>
      let v := eval vm_compute in (1230 =? k) in change (1230 =? k) with v end.
  cbv beta iota. unfold decode1230, steps1230.
  rewrite !rs_cons. cbn [read_bits]. rewrite E. cbn [bind]. rewrite !rs_cons. cbn [read_bits].
  number A X1. rewrite X1. cbn [bind]. rewrite !rs_cons. cbn [read_bits].
  number A X2. rewrite X2. cbn [bind]. rewrite rs_nil. cbn [bind].
  apply at_next in A. rewrite zlen_enc in A. change (Z.of_nat 3) with 3 in A.
  replace (24 + 12 + 12 + 1 + 3) with (24 + 12 + 12 + 4) in A by lia.
  assert (FM : fits_u 4 (8 * b2z (present (b_l1ca b)) + 4 * b2z (present (b_l1p b))
                         + 2 * b2z (present (b_l2ca b)) + b2z (present (b_l2p b)))).
  { destruct b as [[|] [|] [|] [|]]; vm_compute; split; congruence. }
  number A X3. rewrite X3. cbn [bind].
  destruct b as [[b1|] [b2|] [b3|] [b4|]]; unfold bias_list in A;
    cbn [b_l1ca b_l1p b_l2ca b_l2p opt_fits flat_map opt_enc app present b2z] in *;
    rewrite <- ?app_assoc in A; unfold masks1230;
    repeat first
      [ rewrite mask_off by (vm_compute; reflexivity)
      | match goal with
        | A : at_bits _ ?off (enc 16 ?v ++ _) |- _ =>
            let X := fresh "X" in signed A X;
            rewrite mask_on with (c := v) by (first [exact X | vm_compute; congruence]); clear X
        end ];
    cbn [for_each bind];
    (match goal with |- context [base_length_check ?a ?b] =>
       replace (base_length_check a b (zlen buf)) with (@Ok unit tt)
         by (symmetry; replace b with a by lia; apply base_check_ok; lia) end);
    reflexivity.
Qed.

Lemma glbs_bare_inv buf payload crc o : transport_frame buf payload crc ->
  base_get_msg_num buf = Ok 1230 -> base_decode_bare buf = Ok o ->
  exists id c rsv b, glbs_ok id c b /\ carries buf (glbs_bits id c rsv b).
Proof.
  intros F EN H. destruct (frame_at _ _ _ F) as (A0 & _ & LB & BO).
  set (rest0 := bits_of payload ++ bits_of crc) in *. clearbody rest0.
  unfold base_decode_bare in H. rewrite EN in H. cbn [bind] in H. unfold base_get_msg_num in EN.
  destruct (getbitu_inv _ _ _ _ _ A0 EN) as (rest1 & Q1 & _ & _ & A1).
  change (24 + 12) with 36 in A1. change (Z.to_nat 12) with 12%nat in Q1.
  repeat match type of H with context [1230 =? ?k] =>
      let v := eval vm_compute in (1230 =? k) in change (1230 =? k) with v in H end.
  cbv beta iota in H. unfold decode1230, steps1230 in H.
  rewrite rs_cons in H. cbn [read_bits] in H. rewrite EN in H. cbn [bind] in H.
  change (24 + 12) with 36 in H.
  apply bind_ok in H. destruct H as ([bs off] & H1 & H).
  rewrite rs_cons in H1. apply bind_ok in H1. destruct H1 as (id & X2 & H1). cbn [read_bits] in X2.
  rewrite rs_cons in H1. apply bind_ok in H1. destruct H1 as (c & X3 & H1). cbn [read_bits] in X3.
  rewrite rs_nil in H1. inversion H1; subst bs off; clear H1.
  apply bind_ok in H. destruct H as (mask & X4 & H).
  destruct (getbitu_inv _ _ _ _ _ A1 X2) as (r2 & -> & F2 & _ & A2).
  destruct (getbitu_inv _ _ _ _ _ A2 X3) as (r3 & -> & F3 & _ & A3).
  pose proof X4 as X4'.
  assert (I4 : 52 + 4 <= 8 * zlen buf).
  { destruct (getbitu_spec buf 52 4 BO) as [[(_ & _ & I4) _]|[_ E']]; [lia|]. rewrite X4 in E'. discriminate. }
  destruct (at_split _ _ 3 _ A3 ltac:(lia) ltac:(lia)) as (rv & r4 & -> & Lrv & A4).
  change (36 + 12 + 1 + 3) with 52 in A4.
  destruct (getbitu_inv _ _ _ _ _ A4 X4) as (r5 & -> & F5 & _ & A5).
  assert (ERV : rv = enc 3 (uval rv)).
  { rewrite <- (enc_uval rv) at 1. f_equal. unfold zlen in Lrv. lia. }
  destruct (mask_split mask F5) as (p1 & p2 & p3 & p4 & EM).
  apply bind_ok in H. destruct H as ([[[val cor] off] N] & HL & H).
  apply length_inv in H. destruct H as (_ & LO & LN).
  assert (STEP : forall mk nm l val cor off N r rest,
    for_each ((mk, nm) :: l) (val, cor, off, N) (mask_body buf mask) = Ok r -> at_bits buf off rest ->
    exists ov rest' val' cor', rest = opt_enc ov ++ rest' /\ opt_fits ov /\
      present ov = negb (Z.land mask mk =? 0) /\
      at_bits buf (off + 16 * b2z (present ov)) rest' /\
      for_each l (val', cor', off + 16 * b2z (present ov), N + b2z (present ov)) (mask_body buf mask) = Ok r).
  { clear. intros mk nm l val cor off N r rest H A. cbn [for_each] in H.
    destruct (Z.land mask mk =? 0) eqn:EZ; cbn [negb] in *.
    - exists None, rest, val, cor. cbn [opt_enc app opt_fits present b2z] in *.
      rewrite Z.mul_0_r, !Z.add_0_r. split; [reflexivity|]. split; [exact Logic.I|]. split; [reflexivity|].
      split; [exact A|exact H].
    - apply bind_ok in H. destruct H as (s & H1 & H). apply bind_ok in H1.
      destruct H1 as (v & X & H1). inversion H1; subst s; clear H1.
      destruct (getbits_inv _ _ _ _ _ A X) as (r' & -> & FV & _ & A').
      exists (Some v), r', (sset val nm 1), (sset cor nm v). cbn [opt_enc opt_fits present b2z].
      rewrite Z.mul_1_r. split; [reflexivity|]. split; [exact FV|]. split; [reflexivity|].
      split; [exact A'|exact H]. }
  unfold masks1230 in HL.
  destruct (STEP _ _ _ _ _ _ _ _ _ HL A5) as (o1 & s1 & v1 & c1 & -> & O1 & P1 & B1 & HL1).
  destruct (STEP _ _ _ _ _ _ _ _ _ HL1 B1) as (o2 & s2 & v2 & c2 & -> & O2 & P2 & B2 & HL2).
  destruct (STEP _ _ _ _ _ _ _ _ _ HL2 B2) as (o3 & s3 & v3 & c3 & -> & O3 & P3 & B3 & HL3).
  destruct (STEP _ _ _ _ _ _ _ _ _ HL3 B3) as (o4 & s4 & v4 & c4 & -> & O4 & P4 & B4 & HL4).
  cbn [for_each] in HL4. inversion HL4; subst off N; clear HL4.
  assert (PM : present o1 = p1 /\ present o2 = p2 /\ present o3 = p3 /\ present o4 = p4).
  { rewrite P1, P2, P3, P4, EM. destruct p1, p2, p3, p4; vm_compute; auto. }
  exists id, c, (uval rv), {| b_l1ca := o1; b_l1p := o2; b_l2ca := o3; b_l2p := o4 |}.
  destruct PM as (Q5 & Q6 & Q7 & Q8).
  split; [repeat split; cbn; try assumption; try apply F2; try apply F3|].
  apply (carries_intro _ payload crc _ _ F A0).
  - exists s4. rewrite Q1. unfold glbs_bits, bias_list.
    cbn [b_l1ca b_l1p b_l2ca b_l2p flat_map]. rewrite Q5, Q6, Q7, Q8, mask_bits, <- EM, <- ERV.
    now rewrite <- !app_assoc.
  - rewrite zlen_glbs. cbn [b_l1ca b_l1p b_l2ca b_l2p]. rewrite LN. reflexivity.
Qed.

Lemma glbs_scaled_ok id c b : glbs_ok id c b ->
  exists v, base_scale (glbs_object id c b) =
    Ok {| po_class := "BaseGLBS"; po_attrs :=
      [("msgNum", VInt 1230); ("bsID", VInt id); ("isCorrected", VBool (c =? 1));
       ("validity", validity_of VBool b); ("correction", v)] |} /\
    corrections_of (reports (Decimal 2 1)) b v.
Proof.
  intros (_ & _ & B1 & B2 & B3 & B4).
  exists (VDict (map (fun '(n, o) => (vstr n, VFloat (f_mul (f_of_int (value_or_0 o)) (dec_lit 2 1)))) (bias_list b))).
  split.
  - destruct b as [o1 o2 o3 o4]. unfold glbs_object, validity_of, bias_list.
    cbn [b_l1ca b_l1p b_l2ca b_l2p map]. unfold base_scale.
    cbn -[f_mul f_of_int dec_lit vstr value_or_0 present b2z Z.eqb].
    destruct (present o1), (present o2), (present o3), (present o4); reflexivity.
  - eexists. split; [reflexivity|].
    assert (FB : forall o, opt_fits o -> Z.abs (value_or_0 o) < 2 ^ 38).
    { intros [v|] P; cbn [value_or_0]; [|vm_compute; reflexivity]. cbn [opt_fits] in P. unfold fits_s in P.
      change (2 ^ (Z.of_nat 16 - 1)) with 32768 in P. change (2 ^ 38) with 274877906944. lia. }
    unfold bias_list. cbn [map].
    repeat (apply Forall2_cons; [split; [reflexivity|apply fifths; apply FB; assumption]|]). apply Forall2_nil.
Qed.
