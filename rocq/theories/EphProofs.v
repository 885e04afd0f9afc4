(** * EphProofs: the ephemeris model meets EphSpec. *)
From Coq Require Import Reals.
From Flocq Require Import Core.
From Verif Require Import PyBase PyDict PyFloat PyVal BitsModel BitsSpec BitsProofs MessageSpec
  ReadProofs CleanProofs FloatProofs EphModel EphSpec.
Local Open Scope string_scope.
Local Open Scope list_scope.
Local Open Scope Z_scope.

(** ** Association lists built by repeated assignment *)
Definition assign (o : pyobj) (l : list (string * pyval)) : pyobj :=
  fold_left (fun o '(n, v) => setattr o n v) l o.

Lemma assign_class l : forall o, po_class (assign o l) = po_class o.
Proof. induction l as [|[n v] l IH]; intros o; [reflexivity|]. cbn. unfold assign in IH. now rewrite IH. Qed.

Lemma dset_keys {V} (d : list (string * V)) k v x :
  In x (map fst (sset d k v)) <-> In x (map fst d) \/ x = k.
Proof.
  unfold sset. induction d as [|[k' v'] d IH]; cbn [dset map fst In].
  - intuition congruence.
  - destruct (String.eqb k k') eqn:E; cbn [map fst In].
    + apply string_eqb_spec in E. subst. intuition congruence.
    + rewrite IH. tauto.
Qed.

Lemma dset_nodup {V} (d : list (string * V)) k v : NoDup (map fst d) -> NoDup (map fst (sset d k v)).
Proof.
  unfold sset. induction d as [|[k' v'] d IH]; cbn [dset map fst]; intros ND.
  - constructor; [tauto|constructor].
  - inversion ND as [|? ? NI ND']; subst. destruct (String.eqb k k') eqn:E; cbn [map fst].
    + exact ND.
    + constructor; [|now apply IH]. intros HI. apply (dset_keys d k v) in HI.
      destruct HI as [HI|HI]; [tauto|]. subst. now rewrite String.eqb_refl in E.
Qed.

Lemma assign_nodup l : forall o, NoDup (map fst (po_attrs o)) -> NoDup (map fst (po_attrs (assign o l))).
Proof.
  induction l as [|[n v] l IH]; intros o ND; [exact ND|]. cbn. apply IH. cbn. now apply dset_nodup.
Qed.

Lemma assign_get l : forall o n, NoDup (map fst l) ->
  sget (po_attrs (assign o l)) n = match sget l n with Some v => Some v | None => sget (po_attrs o) n end.
Proof.
  induction l as [|[k v] l IH]; intros o n ND; [reflexivity|].
  inversion ND as [|? ? NI ND']; subst. cbn [map fst] in NI.
  unfold assign in IH. cbn [assign fold_left]. unfold assign. cbn [fold_left]. rewrite IH by assumption.
  unfold sget in *. cbn [dget]. destruct (String.eqb n k) eqn:E.
  - apply string_eqb_spec in E. subst n.
    rewrite (proj2 (dget_None String.eqb string_eqb_spec l k)) by assumption.
    cbn. unfold sset. apply dget_dset_same, string_eqb_spec.
  - destruct (dget String.eqb l n); [reflexivity|]. cbn. unfold sset.
    apply dget_dset_other; [apply string_eqb_spec|]. intros X; subst. now rewrite String.eqb_refl in E.
Qed.

Lemma assign_exactly o l : NoDup (map fst (po_attrs o)) -> NoDup (map fst l) ->
  incl (map fst (po_attrs o)) (map fst l) -> has_exactly (assign o l) (po_class o) l.
Proof.
  intros ND NL IN. split; [apply assign_class|]. split; [now apply assign_nodup|].
  intros n v. pose proof (assign_get l o n NL) as G. unfold sget in G. split; intros HI.
  - rewrite (In_dget String.eqb string_eqb_spec _ n v (assign_nodup l o ND) HI) in G.
    destruct (dget String.eqb l n) eqn:E.
    + inversion G; subst. eapply dget_In; [apply string_eqb_spec|exact E].
    + exfalso. apply (dget_None String.eqb string_eqb_spec) in E. apply E, IN.
      symmetry in G. apply dget_In in G; [|apply string_eqb_spec].
      apply (in_map fst) in G. exact G.
  - rewrite (In_dget String.eqb string_eqb_spec l n v NL HI) in G.
    eapply dget_In; [apply string_eqb_spec|exact G].
Qed.

(** ** Positions of the fields *)
Fixpoint placed (l : list lfield) (off : Z) : list (string * ftype * Z * Z) :=
  match l with
  | [] => []
  | Fld n t w :: r => (n, t, off, Z.of_nat w) :: placed r (off + Z.of_nat w)
  | Rsv w :: r => placed r (off + Z.of_nat w)
  end.

Definition rtype (k : reader) : ftype := match k with RU => U | RS => I | RSM => SM end.
Fixpoint splaced (l : list read_step) (off : Z) : list (string * ftype * Z * Z) :=
  match l with
  | [] => []
  | s :: r => (st_attr s, rtype (st_read s), off, st_width s) :: splaced r (off + st_adv s)
  end.
Definition advance (l : list read_step) : Z := fold_right (fun s n => st_adv s + n) 0 l.

Definition at_place (bits : list bool) (p : string * ftype * Z * Z) : string * Z :=
  let '(n, t, o, w) := p in (n, field_value t (firstn (Z.to_nat w) (skipn (Z.to_nat o) bits))).

Lemma fields_of_placed l bits : forall off, 0 <= off ->
  fields_of l (skipn (Z.to_nat off) bits) = map (at_place bits) (placed l off).
Proof.
  induction l as [|f l IH]; intros off H; [reflexivity|].
  destruct f as [n t w|w]; cbn [fields_of placed map at_place];
    rewrite skipn_skipn; rewrite <- (IH (off + Z.of_nat w)) by lia;
    rewrite Z2Nat.inj_add, !Nat2Z.id by lia; reflexivity.
Qed.

Definition place_inside (N : Z) (p : string * ftype * Z * Z) : bool :=
  let '(n, t, o, w) := p in (1 <=? w) && (w <=? 64) && (0 <=? o) && (o + w <=? N).

Lemma read_ok k buf o w : bytes_ok buf -> field_inside buf o w ->
  read_bits k buf o w = Ok (field_value (rtype k) (field buf o w)).
Proof.
  intros B H. destruct k; cbn [read_bits rtype field_value].
  - now apply getbitu_ok.
  - now apply getbits_ok.
  - now apply getbitS_ok.
Qed.

Lemma run_steps_ok buf steps : bytes_ok buf -> forall o off, 0 <= off ->
  forallb (place_inside (8 * zlen buf)) (splaced steps off) = true ->
  run_steps buf steps (o, off)
  = Ok (assign o (map (fun '(n, v) => (n, VInt v)) (map (at_place (bits_of buf)) (splaced steps off))),
        off + advance steps).
Proof.
  intros B. induction steps as [|s r IH]; intros o off H F.
  - cbn. unfold run_steps. cbn [for_each]. repeat f_equal. lia.
  - cbn [splaced forallb] in F. apply andb_true_iff in F. destruct F as [F1 F2].
    unfold run_steps in *. cbn [for_each]. unfold place_inside in F1. cbv beta iota zeta in F1.
    assert (FI : field_inside buf off (st_width s)) by (unfold field_inside; lia).
    rewrite (read_ok _ _ _ _ B FI). cbn [bind]. unfold field.
    destruct (Z_lt_le_dec (off + st_adv s) 0) as [N|N].
    + destruct r as [|s' r]; cbn [splaced forallb] in F2; [|unfold place_inside at 1 in F2; cbv beta iota zeta in F2; lia].
      cbn [for_each splaced map at_place assign fold_left advance fold_right]. repeat f_equal. lia.
    + rewrite IH by assumption. cbn [splaced map at_place assign fold_left advance fold_right].
      unfold assign. fold (advance r). replace (off + (st_adv s + advance r)) with (off + st_adv s + advance r) by lia.
      reflexivity.
Qed.

Lemma run_steps_advance buf steps : forall o off o' off',
  run_steps buf steps (o, off) = Ok (o', off') -> off' = off + advance steps.
Proof.
  unfold run_steps. induction steps as [|s r IH]; intros o off o' off' H.
  - cbn in H. inversion H; subst. cbn. lia.
  - cbn [for_each] in H. apply bind_ok in H. destruct H as ([o1 off1] & H1 & H2).
    apply bind_ok in H1. destruct H1 as (v & _ & H1). inversion H1; subst.
    apply IH in H2. cbn. unfold advance in H2. lia.
Qed.

(** Never anything but a Python Exception. *)
Lemma clean_read_bits k buf o w : clean (read_bits k buf o w).
Proof. destruct k; [apply clean_getbitu|apply clean_getbits|apply clean_getbitS]. Qed.

Lemma clean_run_steps buf steps st : clean (run_steps buf steps st).
Proof.
  unfold run_steps. apply clean_for_each. intros [o off] s _.
  apply clean_bind; [apply clean_read_bits|]. intros v _. apply clean_ok.
Qed.

(** ** One message type *)
Definition steps_of (t : eph_msg) : list read_step :=
  match t with E1019 => steps1019 | E1020 => steps1020 | E1041 => steps1041 | E1042 => steps1042
             | E1044 => steps1044 | E1045 => steps1045 | E1046 => steps1046 end.
Definition nexp_of (t : eph_msg) : Z :=
  match t with E1019 => 488 | E1020 => 360 | E1041 => 482 | E1042 => 511 | E1044 => 485
             | E1045 => 496 | E1046 => 504 end.
Definition scalers_of (t : eph_msg) : list (string * scaler) :=
  match t with E1019 => scalers1019 | E1020 => scalers1020 | E1041 => scalers1041
             | E1042 => scalers1042 | E1044 => scalers1044 | E1045 => scalers1045
             | E1046 => scalers1046 end.

Lemma decode_bare_type buf t : eph_get_msg_num buf = Ok (eph_number t) ->
  eph_decode_bare buf = run_decoder (eph_class t) (steps_of t) (nexp_of t) buf.
Proof. intros E. unfold eph_decode_bare. rewrite E. destruct t; reflexivity. Qed.

Lemma decode_bare_other buf n : eph_get_msg_num buf = Ok n ->
  (forall t, n <> eph_number t) -> eph_decode_bare buf = Err EEph.
Proof.
  intros E N. unfold eph_decode_bare. rewrite E. cbn [bind].
  pose proof (N E1019). pose proof (N E1020). pose proof (N E1041). pose proof (N E1042).
  pose proof (N E1044). pose proof (N E1045). pose proof (N E1046). cbn [eph_number] in *.
  repeat match goal with |- context [n =? ?k] => rewrite (proj2 (Z.eqb_neq n k)) by assumption end.
  reflexivity.
Qed.

Lemma eph_number_dec n : (exists t, n = eph_number t) \/ (forall t, n <> eph_number t).
Proof.
  destruct (in_dec Z.eq_dec n [1019; 1020; 1041; 1042; 1044; 1045; 1046]) as [H|H].
  - left. cbn in H. destruct H as [H|[H|[H|[H|[H|[H|[H|[]]]]]]]]; subst n.
    + now exists E1019. + now exists E1020. + now exists E1041. + now exists E1042.
    + now exists E1044. + now exists E1045. + now exists E1046.
  - right. intros t E. apply H. subst n. destruct t; cbn; tauto.
Qed.

(** Checks by computation, over the seven types. *)
Lemma places_agree t : t <> E1044 -> splaced (steps_of t) 0 = placed (layout t) 0.
Proof. destruct t; intros H; try congruence; vm_compute; reflexivity. Qed.
Lemma advance_agrees t : t <> E1044 -> advance (steps_of t) = nexp_of t.
Proof. destruct t; intros H; try congruence; vm_compute; reflexivity. Qed.
Lemma nexp_width t : nexp_of t = layout_width (layout t).
Proof. destruct t; vm_compute; reflexivity. Qed.
Lemma advance_1044 : advance steps1044 = 483.
Proof. reflexivity. Qed.
Lemma layout_inside t : forallb (place_inside (layout_width (layout t))) (placed (layout t) 0) = true.
Proof. destruct t; vm_compute; reflexivity. Qed.

Definition names (l : list lfield) : list string :=
  flat_map (fun f => match f with Fld n _ _ => [n] | Rsv _ => [] end) l.
Lemma fields_names l : forall bits, map fst (fields_of l bits) = names l.
Proof.
  induction l as [|f l IH]; intros bits; [reflexivity|].
  destruct f; cbn [fields_of map fst names flat_map app]; [f_equal|]; apply IH.
Qed.
Fixpoint nodupb (l : list string) : bool :=
  match l with [] => true | a :: r => negb (existsb (String.eqb a) r) && nodupb r end.
Lemma nodupb_ok l : nodupb l = true -> NoDup l.
Proof.
  induction l as [|a l IH]; cbn [nodupb]; intros H; [constructor|].
  apply andb_true_iff in H. destruct H as [H1 H2]. constructor; [|auto].
  intros HI. apply negb_true_iff in H1. rewrite <- not_true_iff_false in H1. apply H1.
  apply existsb_exists. exists a. split; [exact HI|apply String.eqb_refl].
Qed.
Definition inclb (a b : list string) : bool := forallb (fun x => existsb (String.eqb x) b) a.
Lemma inclb_ok a b : inclb a b = true -> incl a b.
Proof.
  unfold inclb. rewrite forallb_forall. intros H x Hx. specialize (H x Hx).
  apply existsb_exists in H. destruct H as (y & Hy & E). apply string_eqb_spec in E. now subst.
Qed.
Lemma names_nodup t : NoDup (names (layout t)).
Proof. apply nodupb_ok. destruct t; vm_compute; reflexivity. Qed.
Lemma class_fields_nodup t : NoDup (eph_fields (eph_class t)).
Proof. apply nodupb_ok. destruct t; vm_compute; reflexivity. Qed.
Lemma class_fields_in t : incl (eph_fields (eph_class t)) (names (layout t)).
Proof. apply inclb_ok. destruct t; vm_compute; reflexivity. Qed.

Lemma new_eph_keys cls : map fst (po_attrs (new_eph cls)) = eph_fields cls.
Proof. unfold new_eph. cbn [po_attrs]. rewrite map_map. cbn. apply map_id. Qed.

(** ** Frames *)
Lemma frame_skip buf payload crc : transport_frame buf payload crc ->
  skipn 24 (bits_of buf) = bits_of payload ++ bits_of crc.
Proof. intros F. apply frame_at in F. destruct F as ((_ & _ & _ & E) & _). exact E. Qed.

Lemma placed_shift l : forall off d,
  placed l (off + d) = map (fun '(n, t, o, w) => (n, t, o + d, w)) (placed l off).
Proof.
  induction l as [|f l IH]; intros off d; [reflexivity|].
  destruct f; cbn [placed map]; rewrite <- IH;
  replace (off + d + Z.of_nat w) with (off + Z.of_nat w + d) by lia; reflexivity.
Qed.
Lemma splaced_shift l : forall off d,
  splaced l (off + d) = map (fun '(n, t, o, w) => (n, t, o + d, w)) (splaced l off).
Proof.
  induction l as [|f l IH]; intros off d; [reflexivity|].
  cbn [splaced map]; rewrite <- IH.
  replace (off + d + st_adv f) with (off + st_adv f + d) by lia; reflexivity.
Qed.

Lemma firstn_prefix {A} n (a b : list A) : (n <= length a)%nat -> firstn n (a ++ b) = firstn n a.
Proof. intros H. rewrite firstn_app. replace (n - length a)%nat with 0%nat by lia. cbn. apply app_nil_r. Qed.
Lemma skipn_prefix {A} n (a b : list A) : (n <= length a)%nat -> skipn n (a ++ b) = skipn n a ++ b.
Proof. intros H. rewrite skipn_app. replace (n - length a)%nat with 0%nat by lia. reflexivity. Qed.

Lemma layout_width_nonneg l : 0 <= layout_width l.
Proof. induction l as [|f l IH]; cbn; [lia|]. unfold layout_width in IH. lia. Qed.

Lemma fields_in_payload_gen buf payload crc l : transport_frame buf payload crc ->
  forallb (place_inside (layout_width l)) (placed l 0) = true ->
  layout_width l <= 8 * zlen payload ->
  map (at_place (bits_of buf)) (placed l 24) = fields_of l (bits_of payload).
Proof.
  intros F LI L. rewrite (placed_shift _ 0 24), map_map.
  change (bits_of payload) with (skipn (Z.to_nat 0) (bits_of payload)).
  rewrite fields_of_placed by lia. apply map_ext_in. intros [[[n ty] o] w] HI.
  rewrite forallb_forall in LI. specialize (LI _ HI).
  unfold place_inside in LI. cbn [at_place]. f_equal. f_equal.
  replace (Z.to_nat (o + 24)) with (24 + Z.to_nat o)%nat by lia.
  rewrite <- skipn_skipn, (frame_skip _ _ _ F).
  pose proof (zlen_bits_of payload) as LP. unfold zlen in LP.
  rewrite skipn_prefix, firstn_prefix; [reflexivity| |]; rewrite ?skipn_length; unfold zlen in *; lia.
Qed.

Lemma fields_in_payload buf payload crc t : transport_frame buf payload crc ->
  layout_width (layout t) <= 8 * zlen payload ->
  map (at_place (bits_of buf)) (placed (layout t) 24) = fields_of (layout t) (bits_of payload).
Proof. intros F L. apply (fields_in_payload_gen _ _ crc); [exact F|apply layout_inside|exact L]. Qed.

Definition bare_attrs (t : eph_msg) (payload : list Z) : list (string * pyval) :=
  map (fun '(n, v) => (n, VInt v)) (fields_of (layout t) (bits_of payload)).

Lemma bare_attrs_keys t payload : map fst (bare_attrs t payload) = names (layout t).
Proof.
  unfold bare_attrs. rewrite map_map, <- (fields_names _ (bits_of payload)). apply map_ext.
  now intros [n v].
Qed.

Lemma msg_num_payload buf payload crc : transport_frame buf payload crc -> 2 <= zlen payload ->
  eph_get_msg_num buf = Ok (uval (firstn 12 (bits_of payload))).
Proof.
  intros F L. pose proof (frame_at _ _ _ F) as (A & _ & LB & BO). unfold eph_get_msg_num.
  rewrite getbitu_ok; [|assumption|unfold field_inside; lia].
  f_equal. f_equal. unfold field. change (Z.to_nat 24) with 24%nat. rewrite (frame_skip _ _ _ F).
  apply firstn_prefix. pose proof (zlen_bits_of payload). unfold zlen in *. lia.
Qed.

Lemma eph_bytes_spec t N : eph_bytes t <= N <-> layout_width (layout t) <= 8 * N.
Proof. unfold eph_bytes. lia. Qed.

Lemma length_check_ok nexp n : eph_length_check nexp nexp n = Ok tt <-> 6 + (nexp + 7) / 8 <= n.
Proof.
  unfold eph_length_check. rewrite Z.eqb_refl. cbn [negb].
  rewrite Z.shiftr_div_pow2 by lia. change (2 ^ 3) with 8.
  destruct (n <? 6 + (nexp + 7) / 8) eqn:E; split; intros H; try discriminate; try reflexivity; lia.
Qed.

Lemma run_decoder_ok buf payload crc t : t <> E1044 -> transport_frame buf payload crc ->
  eph_bytes t <= zlen payload ->
  run_decoder (eph_class t) (steps_of t) (nexp_of t) buf
  = Ok (assign (new_eph (eph_class t)) (bare_attrs t payload)).
Proof.
  intros NT F L. pose proof L as L'. apply eph_bytes_spec in L.
  pose proof (frame_at _ _ _ F) as (_ & _ & LB & BO). unfold run_decoder.
  rewrite run_steps_ok; [|assumption|lia|].
  - cbn [bind]. rewrite advance_agrees by assumption.
    replace (24 + nexp_of t - 24) with (nexp_of t) by lia.
    rewrite (proj2 (length_check_ok _ _)).
    + cbn [bind]. f_equal. f_equal. unfold bare_attrs. f_equal.
      rewrite (splaced_shift _ 0 24), places_agree by assumption. rewrite <- placed_shift.
      now apply (fields_in_payload _ _ crc).
    + rewrite nexp_width. unfold eph_bytes in L'. lia.
  - rewrite (splaced_shift _ 0 24), places_agree by assumption.
    pose proof (layout_inside t) as LI. rewrite forallb_forall in LI |- *.
    intros x HI. apply in_map_iff in HI. destruct HI as ([[[n ty] o] w] & <- & HI).
    specialize (LI _ HI). unfold place_inside in *. lia.
Qed.

Lemma run_decoder_short buf t : zlen buf < 6 + eph_bytes t ->
  exists e, run_decoder (eph_class t) (steps_of t) (nexp_of t) buf = Err e /\ is_exception e = true.
Proof.
  intros L. unfold run_decoder.
  pose proof (clean_run_steps buf (steps_of t) (new_eph (eph_class t), 24)) as C.
  destruct (run_steps buf (steps_of t) (new_eph (eph_class t), 24)) as [[o off]|e] eqn:E.
  - cbn [bind]. unfold eph_length_check. rewrite Z.shiftr_div_pow2 by lia. change (2 ^ 3) with 8.
    destruct (off - 24 =? nexp_of t) eqn:EN; cbn [negb bind]; [|now exists EEph].
    apply Z.eqb_eq in EN. rewrite EN. unfold eph_bytes in L. rewrite <- nexp_width in L.
    destruct (zlen buf <? 6 + (nexp_of t + 7) / 8) eqn:EL; [now exists EEph|lia].
  - cbn [bind]. exists e. split; [reflexivity|]. unfold clean in C. destruct e; try reflexivity; tauto.
Qed.

Lemma run_decoder_1044 buf :
  exists e, run_decoder (eph_class E1044) (steps_of E1044) (nexp_of E1044) buf = Err e /\
            is_exception e = true.
Proof.
  unfold run_decoder.
  pose proof (clean_run_steps buf (steps_of E1044) (new_eph (eph_class E1044), 24)) as C.
  destruct (run_steps buf (steps_of E1044) (new_eph (eph_class E1044), 24)) as [[o off]|e] eqn:E.
  - cbn [bind]. apply run_steps_advance in E. cbn [steps_of] in E. rewrite advance_1044 in E. subst off.
    exists EEph. split; reflexivity.
  - cbn [bind]. exists e. split; [reflexivity|]. unfold clean in C. destruct e; try reflexivity; tauto.
Qed.
