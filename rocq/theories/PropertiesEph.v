(** * PropertiesEph: final statements for C21-C24 (ephemeris messages). *)
From Coq Require Import Reals.
From Flocq Require Import Core.
From Verif Require Import PyBase PyDict PyFloat PyVal BitsSpec BitsProofs MessageSpec FloatProofs
  EphModel EphSpec EphProofs EphTheorems TestData.
Local Open Scope string_scope.
Local Open Scope list_scope.
Local Open Scope Z_scope.

(** ** C21: bare decoding inverts encoding *)

(** Any frame announcing one of the six types and long enough: an object of the right class,
    with exactly the fields of the layout, each the value of its bits in the payload. *)
Theorem C21_bare_fields : forall buf payload crc t,
  t <> E1044 -> transport_frame buf payload crc ->
  announces payload t -> eph_bytes t <= zlen payload ->
  exists o, subdecoder_eph true buf = Ok (Some o) /\
    has_exactly o (eph_class t)
      (map (fun '(n, v) => (n, VInt v)) (fields_of (layout t) (bits_of payload))).
Proof. exact eph_bare_ok. Qed.
Print Assumptions C21_bare_fields.

(** Framing any in-range field values gives them back.  [rest] is the padding, and anything
    a sender may append. *)
Theorem C21_round_trip : forall buf payload crc t vals rest,
  t <> E1044 -> transport_frame buf payload crc ->
  length vals = length (layout t) -> Forall2 fits_field (layout t) vals ->
  nth 0 vals 0 = eph_number t ->
  bits_of payload = encode_layout (layout t) vals ++ rest ->
  exists o, subdecoder_eph true buf = Ok (Some o) /\
    has_exactly o (eph_class t)
      (map (fun '(n, v) => (n, VInt v)) (named_values (layout t) vals)).
Proof.
  intros buf payload crc t vals rest NT F LV FV MN E.
  pose proof (zlen_encode_layout _ _ LV (layout_widths t)) as LE.
  assert (LP : layout_width (layout t) <= 8 * zlen payload).
  { rewrite <- zlen_bits_of, E, zlen_app, LE. pose proof (zlen_nonneg rest). lia. }
  apply eph_bytes_spec in LP.
  rewrite <- (fields_of_encode (layout t) vals rest LV (layout_widths t) FV), <- E.
  apply (eph_bare_ok _ _ crc); try assumption. split.
  - pose proof (eph_bytes_big t). lia.
  - rewrite E. destruct vals as [|v vals]; [destruct t; discriminate|]. cbn [nth] in MN. subst v.
    destruct t; cbn [layout encode_layout encode_field]; rewrite <- app_assoc;
      rewrite firstn_app, firstn_all2 by (cbn [enc length]; lia); cbn [enc length Nat.sub firstn];
      rewrite app_nil_r; vm_compute; reflexivity.
Qed.
Print Assumptions C21_round_trip.

(** The first frame of a file of the repository's test data. *)
Definition first_frame (l : list Z) : list Z :=
  match l with _ :: a :: b :: _ => firstn (Z.to_nat (256 * a + b + 6)) l | _ => l end.
Definition eph_attr (bare : bool) (buf : list Z) (n : string) : option pyval :=
  match subdecoder_eph bare buf with
  | Ok (Some o) => sget (po_attrs o) n
  | _ => None
  end.

(** Decoded reference data: values listed in RTCM3_TEST_DATA/EPH/REF/msg1020.txt
    (xn 6604.60595703 km = 13526233 * 2^-11, yn -13420.078125 km, tk 17 h 56 min 30 s,
    frequency channel number 6, i.e. channel -1). *)
Example C21_reference_1020 :
  map (eph_attr true (first_frame sample_1020))
    ["msgNum"; "satNum"; "xn"; "yn"; "dotDotZn"; "En"; "Nt"; "N4"; "tauC"]
  = map (fun v => Some (VInt v)) [1020; 12; 13526233; -27484320; -4; 0; 1115; 7; -12] /\
  map (eph_attr false (first_frame sample_1020)) ["frqSloNum"; "tk"; "tb"]
  = map (fun v => Some (VInt v)) [-1; 64590; 63900].
Proof. vm_compute. split; reflexivity. Qed.

(** The hypotheses are met by every type: the reference frames, cut into header, payload and
    checksum. *)
Definition frame_payload (buf : list Z) : list Z := firstn (length buf - 6) (skipn 3 buf).
Definition frame_crc (buf : list Z) : list Z := skipn (length buf - 3) buf.
Lemma frame_parts buf :
  buf = frame_of (frame_payload buf) (frame_crc buf) -> zlen (frame_payload buf) <= 1023 ->
  zlen (frame_crc buf) = 3 -> bytes_okb buf = true ->
  transport_frame buf (frame_payload buf) (frame_crc buf).
Proof.
  intros E L C B. apply bytes_okb_ok in B. repeat split; try assumption.
  - unfold frame_payload. now apply bytes_ok_firstn, bytes_ok_skipn.
  - unfold frame_crc. now apply bytes_ok_skipn.
Qed.

Definition eph_sample (t : eph_msg) : list Z :=
  first_frame (match t with E1019 => sample_1019 | E1020 => sample_1020 | E1041 => sample_1041
    | E1042 => sample_1042 | E1044 => [] | E1045 => sample_1045 | E1046 => sample_1046 end).
Example C21_nonvacuous : forall t, t <> E1044 ->
  transport_frame (eph_sample t) (frame_payload (eph_sample t)) (frame_crc (eph_sample t)) /\
  announces (frame_payload (eph_sample t)) t /\
  eph_bytes t <= zlen (frame_payload (eph_sample t)).
Proof.
  intros t NT. split; [|split].
  - apply frame_parts; destruct t; try congruence; vm_compute; congruence.
  - destruct t; try congruence; split; vm_compute; congruence.
  - destruct t; try congruence; vm_compute; congruence.
Qed.

(** ** C22: QZSS ephemeris *)

(** No buffer announcing message 1044 is ever decoded ... *)
Theorem C22_1044_never_decoded : forall bare buf payload crc,
  transport_frame buf payload crc -> announces payload E1044 ->
  subdecoder_eph bare buf = Ok None.
Proof.
  intros bare buf payload crc F (L & A). apply eph_1044_none.
  now rewrite (msg_num_payload _ _ _ F L), A.
Qed.
Print Assumptions C22_1044_never_decoded.

(** ... although well-formed ones exist: 485 bits in 61 bytes. *)
Definition qzs_values : list Z :=
  [1044; 3; 5400; -1; 200; -3000; 17; 55; -66; 77777; -88; 99999; 111; 222222; 5400; -12; 333333;
   14; -444444; 155; 666666; -7777; 88; 1; 1023; 2; 0; -5; 700; 1].
Definition qzs_payload : list Z := pack (encode_layout (layout E1044) qzs_values).

Theorem C22_qzss_decoded_refuted : exists buf payload crc vals rest,
  transport_frame buf payload crc /\ Forall2 fits_field (layout E1044) vals /\
  nth 0 vals 0 = 1044 /\ bits_of payload = encode_layout (layout E1044) vals ++ rest /\
  zlen rest < 8 /\
  subdecoder_eph true buf = Ok None /\ subdecoder_eph false buf = Ok None.
Proof.
  exists (frame_of qzs_payload [1; 2; 3]), qzs_payload, [1; 2; 3], qzs_values, [false; false; false].
  split; [repeat split; try (vm_compute; congruence); apply bytes_okb_ok; vm_compute; reflexivity|].
  split; [repeat constructor; vm_compute; congruence|].
  vm_compute. repeat split; reflexivity.
Qed.
Print Assumptions C22_qzss_decoded_refuted.

(** ** C23: scaling *)

(** Scaled mode: an object of the same class, with exactly the fields of the layout, each
    reported in its unit; [reports] demands exactness for every unit but the decimal one of
    BeiDou group delays. *)
Theorem C23_scaled_units : forall buf payload crc t,
  t <> E1044 -> transport_frame buf payload crc ->
  announces payload t -> eph_bytes t <= zlen payload ->
  exists o, subdecoder_eph false buf = Ok (Some o) /\
    po_class o = eph_class t /\ NoDup (map fst (po_attrs o)) /\
    (forall n, In n (map fst (po_attrs o)) <->
               In n (map fst (fields_of (layout t) (bits_of payload)))) /\
    (forall n v, In (n, v) (fields_of (layout t) (bits_of payload)) ->
       exists p, In (n, p) (po_attrs o) /\ reports (unit_of t n) v p).
Proof. exact eph_scaled_ok. Qed.
Print Assumptions C23_scaled_units.

(** The transmitted integer is recoverable: frames of the same type whose scaled objects agree
    on an attribute agree on the transmitted field (for tk, provided the minutes are below
    sixty). *)
Theorem C23_recoverable : forall t buf payload crc buf' payload' crc' o o' n p v v',
  transport_frame buf payload crc -> transport_frame buf' payload' crc' ->
  announces payload t -> announces payload' t ->
  subdecoder_eph false buf = Ok (Some o) -> subdecoder_eph false buf' = Ok (Some o') ->
  In (n, p) (po_attrs o) -> In (n, p) (po_attrs o') ->
  In (n, v) (fields_of (layout t) (bits_of payload)) ->
  In (n, v') (fields_of (layout t) (bits_of payload')) ->
  (unit_of t n = TimeOfDay -> (v / 2) mod 64 < 60 /\ (v' / 2) mod 64 < 60) ->
  v = v'.
Proof.
  intros t buf payload crc buf' payload' crc' o o' n p v v' F F' A A' D D' I1 I1' I2 I2' TD.
  assert (G : forall buf payload crc o v, transport_frame buf payload crc -> announces payload t ->
    subdecoder_eph false buf = Ok (Some o) -> In (n, p) (po_attrs o) ->
    In (n, v) (fields_of (layout t) (bits_of payload)) ->
    reports (unit_of t n) v p /\ layout_width (layout t) <= zlen (bits_of payload)).
  { clear. intros buf payload crc o v F A D I1 I2.
    destruct (proj1 (eph_decoded_iff false _ _ _ F) (ex_intro _ o D)) as (t' & NT & A' & L).
    assert (t' = t) by (destruct A as [_ A], A' as [_ A']; rewrite A in A'; destruct t, t'; discriminate || reflexivity).
    subst t'. destruct (eph_scaled_ok _ _ _ _ NT F A L) as (o' & D' & _ & ND & _ & R).
    assert (o' = o) by congruence. subst o'.
    destruct (R n v I2) as (p' & I3 & RP). split.
    - replace p with p'; [exact RP|].
      pose proof (In_dget String.eqb string_eqb_spec _ n p ND I1) as G1.
      pose proof (In_dget String.eqb string_eqb_spec _ n p' ND I3) as G2. congruence.
    - rewrite zlen_bits_of. now apply eph_bytes_spec. }
  destruct (G _ _ _ _ _ F A D I1 I2) as [R L]. destruct (G _ _ _ _ _ F' A' D' I1' I2') as [R' L'].
  destruct (field_inst _ _ _ _ L I2) as (ty & off & w & P1 & V1).
  destruct (field_inst _ _ _ _ L' I2') as (ty' & off' & w' & P2 & V2).
  assert (E : (n, ty, off, w) = (n, ty', off', w')).
  { assert (ND : NoDup (map (fun q => fst (fst (fst q))) (placed (layout t) 0)))
      by (apply nodupb_ok; destruct t; vm_compute; reflexivity).
    revert ND P1 P2. generalize (placed (layout t) 0). clear. intros l.
    induction l as [|q l IH]; intros ND P1 P2; [destruct P1|]. cbn [map] in ND.
    inversion ND as [|? ? NI ND']; subst. destruct P1 as [->|P1], P2 as [P2|P2]; try congruence.
    - exfalso. apply NI. cbn. apply (in_map (fun q => fst (fst (fst q)))) in P2. exact P2.
    - exfalso. subst q. apply NI. cbn. apply (in_map (fun q => fst (fst (fst q)))) in P1. exact P1.
    - now apply IH. }
  inversion E; subst ty' off' w'.
  exact (reports_inj _ _ _ _ _ _ _ _ P1 V1 V2 TD R R').
Qed.
Print Assumptions C23_recoverable.

(** Units used, over all six types: only BeiDou group delays are not reported exactly. *)
Theorem C23_exact_units : forall t n m k, t <> E1044 -> unit_of t n = Decimal m k ->
  t = E1042 /\ (n = "TGD1" \/ n = "TGD2").
Proof.
  intros t n m k NT H.
  destruct t; try congruence; cbn [unit_of] in H; unfold gps_like_unit in H;
  repeat match type of H with
  | (if existsb (String.eqb n) ["TGD1"; "TGD2"] then _ else _) = _ =>
      destruct (existsb (String.eqb n) ["TGD1"; "TGD2"]) eqn:E
  | (if ?b then _ else _) = _ => destruct b; [discriminate|]
  end; try discriminate.
  split; [reflexivity|]. cbn [existsb] in E. rewrite orb_false_r in E.
  apply orb_true_iff in E. destruct E as [E|E]; apply String.eqb_eq in E; tauto.
Qed.
Print Assumptions C23_exact_units.

(** ** C24: rejection *)

(** In either mode, a frame is decoded iff it announces one of the six types inside its
    payload and the payload covers the layout; otherwise the result is None. *)
Theorem C24_decoded_iff_long_enough : forall bare buf payload crc,
  transport_frame buf payload crc ->
  ((exists o, subdecoder_eph bare buf = Ok (Some o)) <->
   (exists t, t <> E1044 /\ announces payload t /\ eph_bytes t <= zlen payload)).
Proof. exact eph_decoded_iff. Qed.
Print Assumptions C24_decoded_iff_long_enough.

Theorem C24_short_rejected : forall bare buf payload crc,
  transport_frame buf payload crc ->
  (forall t, t <> E1044 -> announces payload t -> zlen payload < eph_bytes t) ->
  subdecoder_eph bare buf = Ok None.
Proof.
  intros bare buf payload crc F H. destruct (eph_never_raises bare buf) as ([o|] & E); [|exact E].
  destruct (proj1 (eph_decoded_iff bare _ _ _ F) (ex_intro _ o E)) as (t & NT & A & L).
  specialize (H t NT A). lia.
Qed.
Print Assumptions C24_short_rejected.

(** Never an exception, for any buffer at all. *)
Theorem C24_never_raises : forall bare buf, exists r, subdecoder_eph bare buf = Ok r.
Proof. exact eph_never_raises. Qed.
Print Assumptions C24_never_raises.

(** The result depends on the payload alone: neither the checksum bytes nor anything else can
    leak into a field. *)
Theorem C24_payload_only : forall bare buf buf' payload crc crc',
  transport_frame buf payload crc -> transport_frame buf' payload crc' ->
  subdecoder_eph bare buf = subdecoder_eph bare buf'.
Proof.
  assert (G : forall bare buf buf' payload crc crc', transport_frame buf payload crc ->
    transport_frame buf' payload crc' -> forall o, subdecoder_eph bare buf = Ok (Some o) ->
    subdecoder_eph bare buf' = Ok (Some o)).
  { intros bare buf buf' payload crc crc' F F' o H. apply sub_inv in H. apply sub_some.
    unfold eph_decode in *. apply bind_ok in H. destruct H as (b & H1 & H2).
    destruct (eph_bare_inv _ _ _ _ F H1) as (t & NT & A & L & ->). destruct A as [L2 A].
    rewrite (decode_bare_type buf' t) by (rewrite (msg_num_payload _ _ _ F' L2), A; reflexivity).
    rewrite (run_decoder_ok _ _ _ _ NT F' L). exact H2. }
  intros bare buf buf' payload crc crc' F F'.
  destruct (eph_never_raises bare buf) as (r & E). destruct (eph_never_raises bare buf') as (r' & E').
  destruct r as [o|].
  - rewrite E. symmetry. exact (G _ _ _ _ _ _ F F' o E).
  - destruct r' as [o'|]; [|congruence].
    rewrite (G _ _ _ _ _ _ F' F o' E') in E. discriminate.
Qed.
Print Assumptions C24_payload_only.

(** Non-vacuity: the GPS reference message without its last payload byte. *)
Definition cut_payload : list Z := removelast (frame_payload (eph_sample E1019)).
Example C24_nonvacuous :
  transport_frame (frame_of cut_payload [0; 0; 0]) cut_payload [0; 0; 0] /\
  announces cut_payload E1019 /\ zlen cut_payload < eph_bytes E1019 /\
  subdecoder_eph true (frame_of cut_payload [0; 0; 0]) = Ok None.
Proof.
  split; [repeat split; try (vm_compute; congruence); apply bytes_okb_ok; vm_compute; reflexivity|].
  split; [split; vm_compute; congruence|]. split; [vm_compute; reflexivity|vm_compute; reflexivity].
Qed.
