(** * PropertiesBase: final statements for C25-C29 (station messages). *)
From Coq Require Import Reals.
From Flocq Require Import Core.
From Verif Require Import PyBase PyDict PyFloat PyVal BitsModel BitsSpec BitsProofs MessageSpec ReadProofs
  FloatProofs EphSpec EphProofs EphTheorems BaseModel BaseSpec TextProofs MsmTheorems BaseProofs BaseTextProofs
  BaseSchedProofs TestData PropertiesEph.
Local Open Scope string_scope.
Local Open Scope list_scope.
Local Open Scope Z_scope.

(** ** C25: messages 1005 and 1006 *)

(** Bare mode: the object has exactly the fields of the layout, in order, each the value of its
    bits. *)
Theorem C25_bare_fields : forall buf payload crc t,
  transport_frame buf payload crc -> numbered payload (rp_number t) -> zlen payload = rp_bytes t ->
  subdecoder_base true buf =
  Ok (Some {| po_class := rp_class t;
              po_attrs := map (fun '(n, v) => (n, VInt v)) (fields_of (rp_layout t) (bits_of payload)) |}).
Proof.
  intros buf payload crc t F N L. apply sub_base_some. unfold base_decode.
  rewrite (rp_bare_ok _ _ _ _ F N L). reflexivity.
Qed.
Print Assumptions C25_bare_fields.

(** Framing any in-range values gives them back. *)
Theorem C25_round_trip : forall buf t vals,
  length vals = length (rp_layout t) -> Forall2 fits_field (rp_layout t) vals ->
  nth 0 vals 0 = rp_number t -> carries buf (encode_layout (rp_layout t) vals) ->
  subdecoder_base true buf =
  Ok (Some {| po_class := rp_class t;
              po_attrs := map (fun '(n, v) => (n, VInt v)) (named_values (rp_layout t) vals) |}).
Proof.
  intros buf t vals LV FV MN C. pose proof (carries_length _ _ C) as LB.
  destruct C as (payload & crc & pad & F & E & P). destruct (frame_at _ _ _ F) as (_ & _ & LF & _).
  assert (WP : Forall (fun f => (0 < field_width f)%nat) (rp_layout t))
    by (destruct t; repeat constructor).
  pose proof (zlen_encode_layout _ _ LV WP) as LE. destruct (rp_width t) as [W1 W2].
  rewrite <- (EphTheorems.fields_of_encode (rp_layout t) vals pad LV WP FV), <- E.
  apply (C25_bare_fields _ _ crc); [exact F| |].
  - split.
    + rewrite LE in LB. destruct t; cbn [rp_bytes] in *; lia.
    + rewrite E. destruct vals as [|v vals]; [destruct t; discriminate|]. cbn [nth] in MN. subst v.
      destruct t; cbn [rp_layout layout1005 layout1006 app encode_layout encode_field]; rewrite <- app_assoc;
        rewrite firstn_app, firstn_all2 by (cbn [enc length]; lia); cbn [enc length Nat.sub firstn];
        rewrite app_nil_r; vm_compute; reflexivity.
  - rewrite LE in LB. lia.
Qed.
Print Assumptions C25_round_trip.

(** Scaled mode: the same attributes in the same order, flags as booleans, lengths in metres
    (one unit = 10^-4 m) within 2^-51 relative, the quarter-cycle indicator as text. *)
Theorem C25_scaled_fields : forall buf payload crc t,
  transport_frame buf payload crc -> numbered payload (rp_number t) -> zlen payload = rp_bytes t ->
  exists o, subdecoder_base false buf = Ok (Some o) /\ po_class o = rp_class t /\
    Forall2 (fun '(n, v) '(n', p) => n = n' /\ rp_reports n v p)
      (fields_of (rp_layout t) (bits_of payload)) (po_attrs o).
Proof.
  intros buf payload crc t F N L. destruct (rp_scaled_ok _ _ _ _ F N L) as (o & E & C & A).
  exists o. split; [now apply sub_base_some|]. split; [exact C|exact A].
Qed.
Print Assumptions C25_scaled_fields.

(** Any other payload length is rejected, in either mode; nothing is raised. *)
Theorem C25_wrong_length : forall bare buf payload crc t,
  transport_frame buf payload crc -> numbered payload (rp_number t) -> zlen payload <> rp_bytes t ->
  subdecoder_base bare buf = Ok None.
Proof.
  intros bare buf payload crc t F N L.
  destruct (sub_base_cases bare buf _ (base_msg_num _ _ _ _ F N)) as [H|H]; [|exact H].
  apply (rp_decoded_iff _ _ _ _ _ F N) in H. congruence.
Qed.
Print Assumptions C25_wrong_length.

(** Reference data of the repository (RTCM3_TEST_DATA/BASE/REF). *)
Example C25_reference :
  subdecoder_base true (first_frame sample_1005) =
    Ok (Some {| po_class := "BaseRP"; po_attrs :=
      [("msgNum", VInt 1005); ("bsID", VInt 42); ("ITRF_Year", VInt 0); ("GPS_OK", VInt 1);
       ("GLO_OK", VInt 1); ("GAL_OK", VInt 1); ("isVirtual", VInt 0);
       ("refPoint_X", VInt 33359311125); ("singleOsc", VInt 0); ("refPoint_Y", VInt 17432956681);
       ("QC_bias", VInt 1); ("refPoint_Z", VInt 51321304266)] |}) /\
  subdecoder_base true (first_frame sample_1006) =
    Ok (Some {| po_class := "BaseRPH"; po_attrs :=
      [("msgNum", VInt 1006); ("bsID", VInt 0); ("ITRF_Year", VInt 0); ("GPS_OK", VInt 1);
       ("GLO_OK", VInt 1); ("GAL_OK", VInt 1); ("isVirtual", VInt 1);
       ("refPoint_X", VInt (-10788056687)); ("singleOsc", VInt 0); ("refPoint_Y", VInt (-58749770231));
       ("QC_bias", VInt 0); ("refPoint_Z", VInt 22342815866); ("height", VInt 0)] |}).
Proof. vm_compute. split; reflexivity. Qed.

Definition rp_sample (t : rp_msg) : list Z :=
  first_frame (match t with R1005 => sample_1005 | R1006 => sample_1006 end).
Example C25_nonvacuous : forall t,
  transport_frame (rp_sample t) (frame_payload (rp_sample t)) (frame_crc (rp_sample t)) /\
  numbered (frame_payload (rp_sample t)) (rp_number t) /\
  zlen (frame_payload (rp_sample t)) = rp_bytes t.
Proof.
  intros t. split; [|split].
  - apply frame_parts; destruct t; vm_compute; congruence.
  - destruct t; split; vm_compute; congruence.
  - destruct t; vm_compute; congruence.
Qed.

(** ** C26: text messages, bare mode *)

(** Every well-formed message is decoded to its own contents: the strings as listings of
    exactly the transmitted bytes, with their lengths. *)
Theorem C26_bare_text : forall buf m, text_ok m -> carries buf (text_bits m) ->
  subdecoder_base true buf =
  Ok (Some {| po_class := text_class m; po_attrs := text_attrs hex_listing m |}).
Proof.
  intros buf m OK C. apply sub_base_some. unfold base_decode. now rewrite (text_bare_ok _ _ OK C).
Qed.
Print Assumptions C26_bare_text.

(** The listing determines the bytes. *)
Theorem C26_listing_lossless : forall s s', bytes_ok s -> bytes_ok s' ->
  hex_listing s = hex_listing s' -> s = s'.
Proof. exact listing_inj. Qed.
Print Assumptions C26_listing_lossless.

(** Nothing else with one of these message numbers is decoded. *)
Theorem C26_only_text : forall bare buf payload crc n o,
  transport_frame buf payload crc -> numbered payload n -> In n [1007; 1008; 1033; 1029] ->
  subdecoder_base bare buf = Ok (Some o) -> exists m, text_ok m /\ carries buf (text_bits m).
Proof.
  intros bare buf payload crc n o F N HI H. apply sub_base_inv in H. unfold base_decode in H.
  apply bind_ok in H. destruct H as (o' & H & _).
  exact (text_bare_inv _ _ _ _ _ F (base_msg_num _ _ _ _ F N) HI H).
Qed.
Print Assumptions C26_only_text.

Definition sample_text : text_msg :=
  T1033 7 (ustr "ADVNULLANTENNA") 233 [0; 255; 9] [] (ustr "1.0") [200; 100].
Example C26_nonvacuous : text_ok sample_text /\
  carries (frame_bits (text_bits sample_text) [1; 2; 3]) (text_bits sample_text) /\
  sget (po_attrs {| po_class := ""; po_attrs := text_attrs hex_listing sample_text |}) "serialNumber"
    = Some (vstr "0x0 0xff 0x9").
Proof.
  split; [|split].
  - repeat split; try (vm_compute; congruence); apply bytes_okb_ok; vm_compute; reflexivity.
  - apply frame_bits_carries; [vm_compute; congruence|reflexivity|apply bytes_okb_ok; reflexivity].
  - vm_compute. reflexivity.
Qed.

(** ** C27: text messages, scaled mode *)

(** If every string of the message is the UTF-8 encoding of a non-empty text, the object holds
    these texts. *)
Theorem C27_scaled_text_partial : forall buf m, text_ok m -> carries buf (text_bits m) ->
  Forall (fun s => s <> [] /\ exists t, unicode t /\ s = utf8 t) (text_strings m) ->
  exists show, subdecoder_base false buf =
    Ok (Some {| po_class := text_class m; po_attrs := text_attrs show m |}) /\
    (forall s, In s (text_strings m) -> exists t, unicode t /\ s = utf8 t /\ show s = VStr t).
Proof.
  intros buf m OK C G. exists show_text. split.
  - apply sub_base_some. now apply text_scaled_ok.
  - intros s HI. rewrite Forall_forall in G. specialize (G s HI). now apply text_of_good.
Qed.
Print Assumptions C27_scaled_text_partial.

(** The text is determined by the bytes. *)
Theorem C27_text_unique : forall t t', unicode t -> unicode t' -> utf8 t = utf8 t' -> t = t'.
Proof.
  intros t t' U U' E. apply utf8_decode_encode in U, U'. congruence.
Qed.
Print Assumptions C27_text_unique.

(** In every other case - one of the strings empty, or not UTF-8 - the whole message is
    dropped. *)
Theorem C27_dropped : forall buf m, text_ok m -> carries buf (text_bits m) ->
  ~ Forall (fun s => s <> [] /\ exists t, unicode t /\ s = utf8 t) (text_strings m) ->
  subdecoder_base false buf = Ok None.
Proof.
  intros buf m OK C NG. destruct (carries_bits _ _ C) as (_ & _ & _ & payload & crc & F).
  assert (exists n, base_get_msg_num buf = Ok n) as (n & EN).
  { pose proof (text_bare_ok _ _ OK C) as H. unfold base_decode_bare in H.
    destruct (base_get_msg_num buf) as [n|]; [eauto|discriminate]. }
  destruct (sub_base_cases false buf n EN) as [(o & H)|H]; [|exact H].
  exfalso. apply NG. apply sub_base_inv in H. exact (text_scaled_inv _ _ _ OK C H).
Qed.
Print Assumptions C27_dropped.

(** A descriptor message with an empty serial number - usual in practice - is lost. *)
Theorem C27_empty_string_refuted : exists buf m,
  text_ok m /\ carries buf (text_bits m) /\
  Forall (fun s => exists t, unicode t /\ s = utf8 t) (text_strings m) /\
  subdecoder_base false buf = Ok None /\
  exists o, subdecoder_base true buf = Ok (Some o).
Proof.
  set (m := T1008 7 (ustr "ANT") 0 []).
  assert (OK : text_ok m)
    by (repeat split; try (vm_compute; congruence); apply bytes_okb_ok; vm_compute; reflexivity).
  assert (C : carries (frame_bits (text_bits m) [1; 2; 3]) (text_bits m))
    by (apply frame_bits_carries; [vm_compute; congruence|reflexivity|apply bytes_okb_ok; reflexivity]).
  exists (frame_bits (text_bits m) [1; 2; 3]), m. split; [exact OK|]. split; [exact C|]. split; [|split].
  - repeat (apply Forall_cons || apply Forall_nil).
    + exists (ustr "ANT"). split; [|reflexivity]. change (ustr "ANT") with [65; 78; 84].
      repeat (apply Forall_cons; [unfold scalar_value; lia|]). apply Forall_nil.
    + exists []. split; [constructor|reflexivity].
  - vm_compute. reflexivity.
  - eexists. vm_compute. reflexivity.
Qed.
Print Assumptions C27_empty_string_refuted.

(** Reference data: TextStr-1029.json, "UTF-8 проверка wörter". *)
Example C27_reference :
  exists o, subdecoder_base false (first_frame sample_1029) = Ok (Some o) /\
  sget (po_attrs o) "message" = Some (VStr
    [85; 84; 70; 45; 56; 32; 1087; 1088; 1086; 1074; 1077; 1088; 1082; 1072; 32; 119; 246; 114; 116;
     101; 114]) /\ sget (po_attrs o) "charNum" = Some (VInt 21) /\
  sget (po_attrs o) "unitsNum" = Some (VInt 30).
Proof. eexists. vm_compute. repeat split; reflexivity. Qed.
Example C27_reference_1033 :
  exists o, subdecoder_base false (first_frame sample_1033) = Ok (Some o) /\
  sget (po_attrs o) "descr" = Some (vstr "ADVNULLANTENNA") /\
  sget (po_attrs o) "serialNumber" = Some (vstr "a0001") /\
  sget (po_attrs o) "rcvDescriptor" = Some (vstr "UNICORE").
Proof. eexists. vm_compute. repeat split; reflexivity. Qed.

(** ** C28: system parameters *)

(** A message announcing its number of entries (1 to 31) is decoded; bare and scaled schedule. *)
Theorem C28_bare_schedule_partial : forall buf id mjd sec leap l,
  sp_ok id mjd sec (zlen l) leap l -> l <> [] -> carries buf (sp_bits id mjd sec (zlen l) leap l) ->
  exists s, subdecoder_base true buf = Ok (Some {| po_class := "BaseSP"; po_attrs :=
    [("msgNum", VInt 1013); ("bsID", VInt id); ("modifiedJulianDay", VInt mjd); ("daySec", VInt sec);
     ("Nm", VInt (zlen l)); ("leapSec", VInt leap); ("shedule", s)] |}) /\
    schedule_of bare_announcement l s.
Proof.
  intros buf id mjd sec leap l OK NE C. eexists. split; [|apply sp_bare_schedule].
  apply sub_base_some. unfold base_decode. now rewrite (sp_bare_ok _ _ _ _ _ _ OK NE C).
Qed.
Print Assumptions C28_bare_schedule_partial.

Theorem C28_scaled_schedule_partial : forall buf id mjd sec leap l,
  sp_ok id mjd sec (zlen l) leap l -> l <> [] -> carries buf (sp_bits id mjd sec (zlen l) leap l) ->
  exists s, subdecoder_base false buf = Ok (Some {| po_class := "BaseSP"; po_attrs :=
    [("msgNum", VInt 1013); ("bsID", VInt id); ("modifiedJulianDay", VInt mjd); ("daySec", VInt sec);
     ("Nm", VInt (zlen l)); ("leapSec", VInt leap); ("shedule", s)] |}) /\
    schedule_of scaled_announcement l s.
Proof.
  intros buf id mjd sec leap l OK NE C. eexists. split; [|apply sp_scaled_schedule; apply OK].
  apply sub_base_some. unfold base_decode. rewrite (sp_bare_ok _ _ _ _ _ _ OK NE C). cbn [bind].
  apply sp_scale.
Qed.
Print Assumptions C28_scaled_schedule_partial.

(** Nothing else is decoded ... *)
Theorem C28_only_announced_count : forall bare buf payload crc o,
  transport_frame buf payload crc -> numbered payload 1013 ->
  subdecoder_base bare buf = Ok (Some o) ->
  exists id mjd sec leap l, sp_ok id mjd sec (zlen l) leap l /\ l <> [] /\
    carries buf (sp_bits id mjd sec (zlen l) leap l).
Proof.
  intros bare buf payload crc o F N H. apply sub_base_inv in H. unfold base_decode in H.
  apply bind_ok in H. destruct H as (o' & H & _).
  exact (sp_bare_inv _ _ _ _ F (base_msg_num _ _ _ _ F N) H).
Qed.
Print Assumptions C28_only_announced_count.

(** ... so that a message with Nm = 0, whose number of entries is to be taken from its length,
    is always lost. *)
Theorem C28_count_from_length_refuted : forall bare buf id mjd sec leap l,
  sp_ok id mjd sec 0 leap l -> carries buf (sp_bits id mjd sec 0 leap l) ->
  subdecoder_base bare buf = Ok None.
Proof.
  intros bare buf id mjd sec leap l OK C. destruct (carries_bits _ _ C) as (rest & A & L & payload & crc & F).
  pose proof A as A0. unfold sp_bits in A. rewrite <- !app_assoc in A.
  destruct OK as (F1 & F2 & F3 & F4 & F5 & FL).
  destruct (at_u_small _ _ 24 12 12 1013 _ A eq_refl eq_refl ltac:(lia) ltac:(vm_compute; split; congruence)) as [EN _].
  destruct (sub_base_cases bare buf 1013 EN) as [(o & H)|H]; [|exact H]. exfalso.
  apply sub_base_inv in H. unfold base_decode in H. apply bind_ok in H. destruct H as (o' & H & _).
  destruct (sp_bare_inv _ _ _ _ F EN H) as (id' & mjd' & sec' & leap' & l' & OK' & NE & C').
  destruct (carries_bits _ _ C') as (rest' & A' & _ & _).
  destruct A0 as (_ & _ & _ & E0), A' as (_ & _ & _ & E0'). rewrite E0 in E0'.
  unfold sp_bits in E0'. rewrite <- !app_assoc in E0'.
  apply (f_equal (fun x => uval (firstn 5 (skipn 57 x)))) in E0'.
  assert (K : forall nm a b c d e tl, uval (firstn 5 (skipn 57 (enc 12 a ++ enc 12 b ++ enc 16 c ++ enc 17 d ++ enc 5 nm ++ enc 8 e ++ tl)))
              = nm mod 2 ^ 5).
  { intros nm a b c d e tl.
    replace (enc 12 a ++ enc 12 b ++ enc 16 c ++ enc 17 d ++ enc 5 nm ++ enc 8 e ++ tl)
      with ((enc 12 a ++ enc 12 b ++ enc 16 c ++ enc 17 d) ++ enc 5 nm ++ enc 8 e ++ tl)
      by now rewrite <- !app_assoc.
    rewrite skipn_app, skipn_all2 by (rewrite !app_length, !enc_length; lia).
    replace (57 - length (enc 12 a ++ enc 12 b ++ enc 16 c ++ enc 17 d))%nat with O
      by (rewrite !app_length, !enc_length; reflexivity).
    cbn [skipn app]. rewrite firstn_app, firstn_all2 by (rewrite enc_length; lia).
    rewrite enc_length. cbn [Nat.sub firstn]. rewrite app_nil_r. apply uval_enc. }
  rewrite !K in E0'. destruct OK' as (_ & _ & _ & F4' & _). unfold fits_u in F4'.
  change (2 ^ Z.of_nat 5) with 32 in F4'. change (2 ^ 5) with 32 in E0'.
  destruct l'; [congruence|]. rewrite zlen_cons in *. pose proof (zlen_nonneg l'). lia.
Qed.
Print Assumptions C28_count_from_length_refuted.

Definition sample_sched : list announcement :=
  [{| an_id := 1005; an_sync := 0; an_period := 100 |}; {| an_id := 1077; an_sync := 1; an_period := 10 |};
   {| an_id := 1005; an_sync := 1; an_period := 65535 |}].
Example C28_nonvacuous :
  sp_ok 7 60000 86399 3 18 sample_sched /\
  carries (frame_bits (sp_bits 7 60000 86399 3 18 sample_sched) [1; 2; 3]) (sp_bits 7 60000 86399 3 18 sample_sched) /\
  sp_ok 7 60000 86399 0 18 sample_sched /\
  carries (frame_bits (sp_bits 7 60000 86399 0 18 sample_sched) [1; 2; 3]) (sp_bits 7 60000 86399 0 18 sample_sched) /\
  (exists o, subdecoder_base true (frame_bits (sp_bits 7 60000 86399 3 18 sample_sched) [1; 2; 3]) = Ok (Some o) /\
   sget (po_attrs o) "shedule" =
     Some (VDict [(VInt 1005, VTuple [VInt 1; VInt 65535]); (VInt 1077, VTuple [VInt 1; VInt 10])])).
Proof.
  split; [|split; [|split; [|split]]].
  - repeat split; try (vm_compute; congruence). repeat constructor; vm_compute; congruence.
  - apply frame_bits_carries; [vm_compute; congruence|reflexivity|apply bytes_okb_ok; reflexivity].
  - repeat split; try (vm_compute; congruence). repeat constructor; vm_compute; congruence.
  - apply frame_bits_carries; [vm_compute; congruence|reflexivity|apply bytes_okb_ok; reflexivity].
  - eexists. vm_compute. split; reflexivity.
Qed.

(** ** C29: GLONASS biases *)

(** For every subset of the four biases and all their values: exactly these are reported, and
    0 with validity 0 for the others. *)
Theorem C29_bare_biases : forall buf id c reserved b,
  glbs_ok id c b -> carries buf (glbs_bits id c reserved b) ->
  exists v, subdecoder_base true buf = Ok (Some {| po_class := "BaseGLBS"; po_attrs :=
    [("msgNum", VInt 1230); ("bsID", VInt id); ("isCorrected", VInt c);
     ("validity", validity_of (fun p => VInt (if p then 1 else 0)) b); ("correction", v)] |}) /\
    corrections_of (fun z p => p = VInt z) b v.
Proof.
  intros buf id c reserved b OK C. eexists. split.
  - apply sub_base_some. unfold base_decode. now rewrite (glbs_bare_ok _ _ _ _ _ OK C).
  - eexists. split; [reflexivity|]. unfold bias_list. repeat constructor.
Qed.
Print Assumptions C29_bare_biases.

(** Scaled: booleans, and the bias field times 0.2. *)
Theorem C29_scaled_biases : forall buf id c reserved b,
  glbs_ok id c b -> carries buf (glbs_bits id c reserved b) ->
  exists v, subdecoder_base false buf = Ok (Some {| po_class := "BaseGLBS"; po_attrs :=
    [("msgNum", VInt 1230); ("bsID", VInt id); ("isCorrected", VBool (c =? 1));
     ("validity", validity_of VBool b); ("correction", v)] |}) /\
    corrections_of (reports (Decimal 2 1)) b v.
Proof.
  intros buf id c reserved b OK C. destruct (glbs_scaled_ok id c b OK) as (v & E & K). exists v.
  split; [|exact K]. apply sub_base_some. unfold base_decode. rewrite (glbs_bare_ok _ _ _ _ _ OK C). exact E.
Qed.
Print Assumptions C29_scaled_biases.

(** Whatever is decoded is such a message: the length always agrees with the mask. *)
Theorem C29_only_wellformed : forall bare buf payload crc o,
  transport_frame buf payload crc -> numbered payload 1230 -> subdecoder_base bare buf = Ok (Some o) ->
  exists id c reserved b, glbs_ok id c b /\ carries buf (glbs_bits id c reserved b).
Proof.
  intros bare buf payload crc o F N H. apply sub_base_inv in H. unfold base_decode in H.
  apply bind_ok in H. destruct H as (o' & H & _).
  exact (glbs_bare_inv _ _ _ _ F (base_msg_num _ _ _ _ F N) H).
Qed.
Print Assumptions C29_only_wellformed.

(** In particular the payload has 4 + 2k bytes, k the number of set bits among payload bits
    28..31; anything else gives None. *)
Theorem C29_wrong_length : forall bare buf payload crc,
  transport_frame buf payload crc -> numbered payload 1230 ->
  zlen payload <> 4 + 2 * Z.of_nat (length (filter (fun x => x) (firstn 4 (skipn 28 (bits_of payload))))) ->
  subdecoder_base bare buf = Ok None.
Proof.
  intros bare buf payload crc F N L.
  destruct (sub_base_cases bare buf _ (base_msg_num _ _ _ _ F N)) as [(o & H)|H]; [|exact H].
  exfalso. apply L. destruct (C29_only_wellformed _ _ _ _ _ F N H) as (id & c & r & b & OK & C).
  pose proof (carries_length _ _ C) as LC. rewrite zlen_glbs in LC.
  destruct (frame_at _ _ _ F) as (A & _ & LF & _).
  destruct (carries_bits _ _ C) as (rest & A' & _ & _).
  destruct A as (_ & _ & _ & E), A' as (_ & _ & _ & E'). rewrite E in E'.
  assert (L4 : 4 <= zlen payload) by (destruct b as [[|] [|] [|] [|]]; cbn [b_l1ca b_l1p b_l2ca b_l2p present b2z] in LC; lia).
  apply (f_equal (fun x => firstn 4 (skipn 28 x))) in E'.
  rewrite skipn_app, firstn_app in E'. pose proof (zlen_bits_of payload) as ZP. unfold zlen in ZP, L4.
  replace (4 - length (skipn 28 (bits_of payload)))%nat with O in E' by (rewrite skipn_length; lia).
  rewrite firstn_O, app_nil_r in E'. rewrite E'. unfold glbs_bits. rewrite <- !app_assoc.
  replace (enc 12 1230 ++ enc 12 id ++ enc 1 c ++ enc 3 r ++
    [present (b_l1ca b); present (b_l1p b); present (b_l2ca b); present (b_l2p b)] ++
    flat_map (fun '(_, o) => opt_enc o) (bias_list b) ++ rest)
    with ((enc 12 1230 ++ enc 12 id ++ enc 1 c ++ enc 3 r) ++
    [present (b_l1ca b); present (b_l1p b); present (b_l2ca b); present (b_l2p b)] ++
    flat_map (fun '(_, o) => opt_enc o) (bias_list b) ++ rest) by now rewrite <- !app_assoc.
  rewrite skipn_app, skipn_all2 by (rewrite !app_length, !enc_length; lia).
  replace (28 - length (enc 12 1230 ++ enc 12 id ++ enc 1 c ++ enc 3 r))%nat with O
    by (rewrite !app_length, !enc_length; reflexivity).
  cbn [skipn app firstn].
  destruct b as [[|] [|] [|] [|]]; cbn [b_l1ca b_l1p b_l2ca b_l2p present b2z filter length] in *; lia.
Qed.
Print Assumptions C29_wrong_length.

Definition sample_biases : biases :=
  {| b_l1ca := Some (-32768); b_l1p := None; b_l2ca := Some 32767; b_l2p := Some (-1) |}.
Example C29_nonvacuous : glbs_ok 42 1 sample_biases /\
  carries (frame_bits (glbs_bits 42 1 5 sample_biases) [1; 2; 3]) (glbs_bits 42 1 5 sample_biases).
Proof.
  split; [repeat split; vm_compute; congruence|].
  apply frame_bits_carries; [vm_compute; congruence|reflexivity|apply bytes_okb_ok; reflexivity].
Qed.
(** GloBias-1230.json *)
Example C29_reference :
  exists o, subdecoder_base true (first_frame sample_1230) = Ok (Some o) /\
  sget (po_attrs o) "bsID" = Some (VInt 42) /\
  sget (po_attrs o) "validity" =
    Some (VDict [(vstr "1C", VInt 1); (vstr "1P", VInt 0); (vstr "2C", VInt 1); (vstr "2P", VInt 0)]).
Proof. eexists. vm_compute. repeat split; reflexivity. Qed.

(** ** Robustness: only a buffer too short to hold a message number raises. *)
Theorem C25_never_raises : forall bare buf, 5 <= zlen buf -> bytes_ok buf ->
  exists r, subdecoder_base bare buf = Ok r.
Proof.
  intros bare buf L B. assert (E : exists n, base_get_msg_num buf = Ok n).
  { unfold base_get_msg_num. rewrite getbitu_ok; [eauto|exact B|unfold field_inside; lia]. }
  destruct E as (n & E). destruct (sub_base_cases bare buf n E) as [(o & ->)| ->]; eauto.
Qed.
Print Assumptions C25_never_raises.
