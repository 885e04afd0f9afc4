(** * PropertiesJsonFields: C40 - what can be found in the printed JSON objects. *)
From Coq Require Import Lia.
From Verif Require Import PyBase PyDict PyFloat PyVal PyFormat PyJson JsonSpec BitsSpec MessageSpec
  MsmModel EphModel BaseModel DecoderModel EphSpec EphProofs EphTheorems BaseSpec BaseProofs BaseTextProofs TestData
  PropertiesEph PropertiesBase JsonModel JsonFileSpec JsonFields.
Local Open Scope string_scope.
Local Open Scope list_scope.
Local Open Scope Z_scope.

(** ** Ephemerides *)

(** The two fields that are lost (see below). *)
Definition lost (t : eph_msg) : list string := match t with E1041 => ["L5_Flag"; "S_Flag"] | _ => [] end.

Lemma eph_covers t : covers (EphSpec.eph_class t) (names (layout t)) (lost t) = true.
Proof. destruct t; vm_compute; reflexivity. Qed.

Lemma bare_or_scaled bare buf payload crc t : t <> E1044 -> transport_frame buf payload crc ->
  announces payload t -> eph_bytes t <= zlen payload ->
  exists o, subdecoder_eph bare buf = Ok (Some o) /\ po_class o = EphSpec.eph_class t /\ NoDup (map fst (po_attrs o)) /\
    (forall n, In n (map fst (po_attrs o)) <-> In n (names (layout t))) /\
    (forall n v, In (n, v) (fields_of (layout t) (bits_of payload)) ->
       exists p, In (n, p) (po_attrs o) /\ if bare then p = VInt v else reports (unit_of t n) v p).
Proof.
  intros NT F A L. destruct bare.
  - destruct (C21_bare_fields _ _ _ _ NT F A L) as (o & E & C & N & H). exists o. split; [exact E|]. split; [exact C|]. split; [exact N|].
    split.
    + intros n. rewrite <- (fields_names (layout t) (bits_of payload)), !in_map_iff. split.
      * intros ((n' & v) & <- & I). apply H in I. apply in_map_iff in I. destruct I as ((m & z) & E' & I). injection E' as <- <-. now exists (m, z).
      * intros ((n' & z) & <- & I). exists (n', VInt z). split; [reflexivity|]. apply H, in_map_iff. now exists (n', z).
    + intros n v I. exists (VInt v). split; [|reflexivity]. apply H, in_map_iff. now exists (n, v).
  - destruct (C23_scaled_units _ _ _ _ NT F A L) as (o & E & C & N & S & H). exists o. split; [exact E|]. split; [exact C|]. split; [exact N|].
    split; [|exact H]. intros n. rewrite S. now rewrite fields_names.
Qed.

(** Every field of the message is a member of the printed object, with its value: the integer
    in bare mode, the value in physical units otherwise.  Missing: [L5_Flag] and [S_Flag] of
    message 1041. *)
Theorem C40_ephemeris_partial : forall ctl bare buf payload crc t,
  t <> E1044 -> transport_frame buf payload crc -> announces payload t -> eph_bytes t <= zlen payload ->
  exists o, subdecoder_eph bare buf = Ok (Some o) /\
    forall n v, In (n, v) (fields_of (layout t) (bits_of payload)) -> ~ In n (lost t) ->
      exists p, jget (json_of ctl (OPy o)) (ustr n) = Some (jv_of p) /\
        if bare then p = VInt v else reports (unit_of t n) v p.
Proof.
  intros ctl bare buf payload crc t NT F A L.
  destruct (bare_or_scaled bare _ _ _ _ NT F A L) as (o & E & C & N & S & H). exists o. split; [exact E|].
  intros n v I X. destruct (H n v I) as (p & W & R). exists p. split; [|exact R].
  apply (covers_attr ctl o (names (layout t)) (lost t) n p); auto. rewrite C. apply eph_covers.
Qed.
Print Assumptions C40_ephemeris_partial.

(** The flags of 1041 are never in the output: no such member exists, and two different
    messages are printed as the same object. *)
Theorem C40_navic_no_flags : forall ctl bare buf payload crc o n,
  transport_frame buf payload crc -> announces payload E1041 ->
  subdecoder_eph bare buf = Ok (Some o) -> In n ["L5_Flag"; "S_Flag"] ->
  jget (json_of ctl (OPy o)) (ustr n) = None.
Proof.
  intros ctl bare buf payload crc o n F A D I.
  destruct (proj1 (eph_decoded_iff bare _ _ _ F) (ex_intro _ o D)) as (t & NT & A' & L).
  assert (t = E1041) as -> by (destruct A as (_ & A), A' as (_ & A'); rewrite A in A'; destruct t; cbn in A'; congruence).
  destruct (bare_or_scaled bare _ _ _ _ NT F A' L) as (o' & E & C & N & S & _). assert (o' = o) as -> by congruence.
  apply (hidden_attr ctl o (eph_fields "EphNAVIC")).
  - rewrite C. reflexivity.
  - intros m Im. apply S. revert m Im. apply (proj1 (Forall_forall (fun m => In m (names (layout E1041))) _)).
    cbn [eph_fields String.eqb Ascii.eqb Bool.eqb kepler_fields app]. repeat (apply Forall_cons; [vm_compute; tauto|]). constructor.
  - intros J. apply mem_In in J. destruct I as [<-|[<-|[]]]; vm_compute in J; discriminate.
Qed.
Print Assumptions C40_navic_no_flags.

Definition flag_payload (flag : Z) : list Z :=
  pack (encode_layout (layout E1041) (1041 :: 3 :: repeat 0 10 ++ flag :: repeat 0 18)).
Theorem C40_navic_flags_refuted : exists buf buf' payload payload' crc,
  transport_frame buf payload crc /\ transport_frame buf' payload' crc /\
  announces payload E1041 /\ announces payload' E1041 /\
  (exists v v', In ("L5_Flag", v) (fields_of (layout E1041) (bits_of payload)) /\
                In ("L5_Flag", v') (fields_of (layout E1041) (bits_of payload')) /\ v <> v') /\
  forall ctl bare, exists o o', subdecoder_eph bare buf = Ok (Some o) /\ subdecoder_eph bare buf' = Ok (Some o') /\
    json_of ctl (OPy o) = json_of ctl (OPy o').
Proof.
  exists (frame_of (flag_payload 0) [1; 2; 3]), (frame_of (flag_payload 1) [1; 2; 3]), (flag_payload 0), (flag_payload 1), [1; 2; 3].
  split; [repeat split; try (vm_compute; congruence); apply bytes_okb_ok; vm_compute; reflexivity|].
  split; [repeat split; try (vm_compute; congruence); apply bytes_okb_ok; vm_compute; reflexivity|].
  split; [split; vm_compute; congruence|]. split; [split; vm_compute; congruence|]. split.
  - exists 0, 1. split; [|split; [|discriminate]]; vm_compute; tauto.
  - intros ctl [|]; eexists; eexists; (split; [vm_compute; reflexivity|]); (split; [vm_compute; reflexivity|]); vm_compute; reflexivity.
Qed.
Print Assumptions C40_navic_flags_refuted.

(** ** Station messages *)
Theorem C40_position : forall ctl bare buf payload crc t,
  transport_frame buf payload crc -> numbered payload (rp_number t) -> zlen payload = rp_bytes t ->
  exists o, subdecoder_base bare buf = Ok (Some o) /\
    forall n v, In (n, v) (fields_of (rp_layout t) (bits_of payload)) ->
      exists p, jget (json_of ctl (OPy o)) (ustr n) = Some (jv_of p) /\
        if bare then p = VInt v else rp_reports n v p.
Proof.
  intros ctl bare buf payload crc t F N L.
  assert (X : exists o, subdecoder_base bare buf = Ok (Some o) /\ po_class o = rp_class t /\
    Forall2 (fun '(n, v) '(n', p) => n = n' /\ if bare then p = VInt v else rp_reports n v p)
      (fields_of (rp_layout t) (bits_of payload)) (po_attrs o)).
  { destruct bare.
    - eexists. split; [exact (C25_bare_fields _ _ _ _ F N L)|]. split; [reflexivity|]. cbn [po_attrs].
      induction (fields_of _ _) as [|[n v] l IH]; constructor; auto.
    - exact (C25_scaled_fields _ _ _ _ F N L). }
  destruct X as (o & E & C & A). exists o. split; [exact E|].
  assert (M : map fst (po_attrs o) = names (rp_layout t)).
  { rewrite <- (fields_names _ (bits_of payload)). clear - A. induction A as [|[n v] [n' p] l l' [<- _] A IH]; cbn; congruence. }
  intros n v I. assert (P : exists p, In (n, p) (po_attrs o) /\ if bare then p = VInt v else rp_reports n v p).
  { clear - A I. induction A as [|[n0 v0] [n' p] l l' [<- R] A IH]; [destruct I|]. destruct I as [I|I].
    - injection I as <- <-. exists p. split; [now left|exact R].
    - destruct (IH I) as (q & Q & R'). exists q. split; [now right|exact R']. }
  destruct P as (p & W & R). exists p. split; [|exact R]. apply (covers_list ctl o (names (rp_layout t)) n p); auto.
  rewrite C. destruct t; vm_compute; reflexivity.
Qed.
Print Assumptions C40_position.

(** Texts: every attribute, so all counts and strings. *)
Lemma text_shown ctl show m o n p : o = {| po_class := text_class m; po_attrs := text_attrs show m |} ->
  In (n, p) (text_attrs show m) -> jget (json_of ctl (OPy o)) (ustr n) = Some (jv_of p).
Proof.
  intros -> I. apply (covers_list ctl _ (map fst (text_attrs (fun _ => VNone) m)) n p); cbn [po_class po_attrs].
  - destruct m; vm_compute; reflexivity.
  - now destruct m.
  - exact I.
Qed.
Theorem C40_text_bare : forall ctl buf m, BaseSpec.text_ok m -> carries buf (text_bits m) ->
  exists o, subdecoder_base true buf = Ok (Some o) /\
    forall n p, In (n, p) (text_attrs hex_listing m) -> jget (json_of ctl (OPy o)) (ustr n) = Some (jv_of p).
Proof.
  intros ctl buf m OK C. eexists. split; [exact (C26_bare_text _ _ OK C)|]. intros n p I. eapply text_shown; [reflexivity|exact I].
Qed.
Print Assumptions C40_text_bare.
Theorem C40_text_scaled : forall ctl buf m o, BaseSpec.text_ok m -> carries buf (text_bits m) ->
  subdecoder_base false buf = Ok (Some o) ->
  exists show, (forall s, In s (text_strings m) -> exists t, unicode t /\ s = utf8 t /\ show s = VStr t) /\
    forall n p, In (n, p) (text_attrs show m) -> jget (json_of ctl (OPy o)) (ustr n) = Some (jv_of p).
Proof.
  intros ctl buf m o OK C D.
  assert (G : Forall (fun s => s <> [] /\ exists t, unicode t /\ s = utf8 t) (text_strings m)).
  { apply sub_base_inv in D. exact (text_scaled_inv _ _ _ OK C D). }
  destruct (C27_scaled_text_partial _ _ OK C G) as (show & E & H). exists show. split; [exact H|].
  intros n p I. eapply text_shown; [|exact I]. congruence.
Qed.
Print Assumptions C40_text_scaled.

Lemma jget_missing d k : (forall k', In k' (map fst d) -> key_text k' <> k) -> jget (jv_of (VDict d)) k = None.
Proof.
  cbn [jv_of jget]. induction d as [|[k' v'] d IH]; intros N; [reflexivity|]. cbn [map find fst snd] in *.
  destruct (list_eq_dec Z.eq_dec (key_text k') k) as [E|E]; [destruct (N k' (or_introl eq_refl) E)|]. apply IH. intros k0 I. apply N. now right.
Qed.

(** The announcements of 1013: member "shedule", one member per announced message number. *)
Theorem C40_schedule : forall ctl bare buf id mjd sec leap l,
  sp_ok id mjd sec (zlen l) leap l -> l <> [] -> carries buf (sp_bits id mjd sec (zlen l) leap l) ->
  exists o, subdecoder_base bare buf = Ok (Some o) /\
    (forall n v, In (n, v) [("msgNum", 1013); ("bsID", id); ("modifiedJulianDay", mjd); ("daySec", sec);
                            ("Nm", zlen l); ("leapSec", leap)] ->
       jget (json_of ctl (OPy o)) (ustr n) = Some (JInt v)) /\
    (forall m, match announced l m with
       | Some a => exists v, jpath (json_of ctl (OPy o)) [ustr "shedule"; py_int_str m] = Some (jv_of v) /\
           if bare then bare_announcement a v else scaled_announcement a v
       | None => jpath (json_of ctl (OPy o)) [ustr "shedule"; py_int_str m] = None
       end).
Proof.
  intros ctl bare buf id mjd sec leap l OK NE C.
  assert (X : exists s, subdecoder_base bare buf = Ok (Some {| po_class := "BaseSP"; po_attrs :=
      [("msgNum", VInt 1013); ("bsID", VInt id); ("modifiedJulianDay", VInt mjd); ("daySec", VInt sec);
       ("Nm", VInt (zlen l)); ("leapSec", VInt leap); ("shedule", s)] |}) /\
      schedule_of (fun a v => if bare then bare_announcement a v else scaled_announcement a v) l s).
  { destruct bare; [exact (C28_bare_schedule_partial _ _ _ _ _ _ OK NE C)|exact (C28_scaled_schedule_partial _ _ _ _ _ _ OK NE C)]. }
  destruct X as (s & E & d & -> & N & H1 & H2). eexists. split; [exact E|].
  assert (J : forall n p, In (n, p) [("msgNum", VInt 1013); ("bsID", VInt id); ("modifiedJulianDay", VInt mjd); ("daySec", VInt sec);
       ("Nm", VInt (zlen l)); ("leapSec", VInt leap); ("shedule", VDict d)] ->
     jget (json_of ctl (OPy {| po_class := "BaseSP"; po_attrs :=
      [("msgNum", VInt 1013); ("bsID", VInt id); ("modifiedJulianDay", VInt mjd); ("daySec", VInt sec);
       ("Nm", VInt (zlen l)); ("leapSec", VInt leap); ("shedule", VDict d)] |})) (ustr n) = Some (jv_of p)).
  { intros n p I. eapply covers_list; [|reflexivity|exact I]. reflexivity. }
  split.
  - intros n v I. change (JInt v) with (jv_of (VInt v)). apply J. cbn [In] in *. intuition congruence.
  - intros m. destruct (announced l m) as [a|] eqn:A.
    2:{ cbn [jpath]. rewrite (J "shedule" (VDict d)) by (cbn; tauto). rewrite jget_missing; [reflexivity|]. intros k Ik Ek. apply in_map_iff in Ik.
        destruct Ik as ((k' & v') & <- & Ik). destruct (H1 _ _ Ik) as (m'' & a & -> & A' & _). cbn [fst key_text] in Ek. apply int_str_inj in Ek. congruence. }
    destruct (H2 m a A) as (v & Iv). destruct (H1 _ _ Iv) as (m' & a' & Em & A' & R). injection Em as <-.
    exists v. assert (a' = a) as -> by congruence. split; [|exact R]. cbn [jpath]. rewrite (J "shedule" (VDict d)) by (cbn; tauto).
    change (py_int_str m) with (key_text (VInt m)). rewrite (jget_dict d (VInt m) v N Iv); [reflexivity|].
    intros k Ik Ek. apply in_map_iff in Ik. destruct Ik as ((k' & v') & <- & Ik). destruct (H1 _ _ Ik) as (m'' & _ & -> & _).
    cbn [fst key_text] in *. f_equal. now apply int_str_inj.
Qed.
Print Assumptions C40_schedule.

(** The biases of 1230: members "validity" and "correction", one member per signal. *)
Theorem C40_biases : forall ctl bare buf id c reserved b,
  glbs_ok id c b -> carries buf (glbs_bits id c reserved b) ->
  exists o, subdecoder_base bare buf = Ok (Some o) /\
    jget (json_of ctl (OPy o)) (ustr "msgNum") = Some (JInt 1230) /\
    jget (json_of ctl (OPy o)) (ustr "bsID") = Some (JInt id) /\
    jget (json_of ctl (OPy o)) (ustr "isCorrected") = Some (if bare then JInt c else JBool (c =? 1)) /\
    forall n v, In (n, v) (bias_list b) ->
      jpath (json_of ctl (OPy o)) [ustr "validity"; ustr n] =
        Some (if bare then JInt (if present v then 1 else 0) else JBool (present v)) /\
      exists p, jpath (json_of ctl (OPy o)) [ustr "correction"; ustr n] = Some (jv_of p) /\
        if bare then p = VInt (value_or_0 v) else reports (Decimal 2 1) (value_or_0 v) p.
Proof.
  intros ctl bare buf id c reserved b OK C.
  set (flag := if bare then VInt c else VBool (c =? 1)).
  set (vd := validity_of (fun p => if bare then VInt (if p then 1 else 0) else VBool p) b).
  assert (X : exists v, subdecoder_base bare buf = Ok (Some {| po_class := "BaseGLBS"; po_attrs :=
      [("msgNum", VInt 1230); ("bsID", VInt id); ("isCorrected", flag); ("validity", vd); ("correction", v)] |}) /\
      corrections_of (fun z p => if bare then p = VInt z else reports (Decimal 2 1) z p) b v).
  { unfold flag, vd. destruct bare; [exact (C29_bare_biases _ _ _ _ _ OK C)|exact (C29_scaled_biases _ _ _ _ _ OK C)]. }
  destruct X as (v & E & d & -> & H). eexists. split; [exact E|].
  assert (J : forall n p, In (n, p) [("msgNum", VInt 1230); ("bsID", VInt id); ("isCorrected", flag); ("validity", vd); ("correction", VDict d)] ->
     jget (json_of ctl (OPy {| po_class := "BaseGLBS"; po_attrs :=
      [("msgNum", VInt 1230); ("bsID", VInt id); ("isCorrected", flag); ("validity", vd); ("correction", VDict d)] |})) (ustr n) = Some (jv_of p)).
  { intros n p I. eapply covers_list; [|reflexivity|exact I]. reflexivity. }
  split; [exact (J "msgNum" (VInt 1230) ltac:(cbn; tauto))|]. split; [exact (J "bsID" (VInt id) ltac:(cbn; tauto))|].
  split; [rewrite (J "isCorrected" flag) by (cbn; tauto); unfold flag; now destruct bare|].
  intros n o I. cbn [jpath]. rewrite (J "validity" vd) by (cbn; tauto). rewrite (J "correction" (VDict d)) by (cbn; tauto). split.
  - unfold vd, validity_of. change (VDict (map (fun '(n0, o0) => (vstr n0, if bare then VInt (if present o0 then 1 else 0) else VBool (present o0))) (bias_list b)))
      with (named [("1C", if bare then VInt (if present (b_l1ca b) then 1 else 0) else VBool (present (b_l1ca b)));
        ("1P", if bare then VInt (if present (b_l1p b) then 1 else 0) else VBool (present (b_l1p b)));
        ("2C", if bare then VInt (if present (b_l2ca b) then 1 else 0) else VBool (present (b_l2ca b)));
        ("2P", if bare then VInt (if present (b_l2p b) then 1 else 0) else VBool (present (b_l2p b)))]).
    rewrite (jget_named _ n). unfold bias_list in I. cbn [In] in I.
    destruct I as [I|[I|[I|[I|[]]]]]; injection I as <- <-; cbn; now destruct bare.
  - unfold bias_list in H, I.
    repeat match goal with H : Forall2 _ (_ :: _) _ |- _ => inversion_clear H; subst end.
    repeat match goal with H : Forall2 _ [] _ |- _ => inversion_clear H; subst end.
    destruct y as [k1 p1], y0 as [k2 p2], y1 as [k3 p3], y2 as [k4 p4].
    repeat match goal with H : _ /\ _ |- _ => destruct H end. subst.
    change (VDict [(vstr "1C", p1); (vstr "1P", p2); (vstr "2C", p3); (vstr "2P", p4)])
      with (named [("1C", p1); ("1P", p2); ("2C", p3); ("2P", p4)]). rewrite (jget_named _ n).
    cbn [In] in I. destruct I as [I|[I|[I|[I|[]]]]]; injection I as <- <-; cbn [sget dget String.eqb Ascii.eqb Bool.eqb option_map];
      eexists; (split; [reflexivity|assumption]).
Qed.
Print Assumptions C40_biases.

(** ** Observations *)

(** The value an object holds for a signal and a satellite. *)
Definition entry {V} (d : obs_dict V) (signal : string) (sat : Z) : option V :=
  match sget d signal with Some sats => zget sats sat | None => None end.

Lemma jget_top z l : jget (jv_of (VDict [(VInt z, named l)])) (py_int_str z) = Some (jv_of (named l)).
Proof. cbn [jv_of jget map find fst snd key_text]. now destruct (list_eq_dec Z.eq_dec (py_int_str z) (py_int_str z)). Qed.

Lemma by_signal_path {V} (f : V -> pyval) (d : obs_dict V) s k :
  jpath (jv_of (by_signal f d)) [ustr s; py_int_str k] = option_map (fun v => jv_of (f v)) (entry d s k).
Proof.
  unfold by_signal, entry. cbn [jpath]. rewrite jget_named.
  assert (E : sget (map (fun '(s0, sats) => (s0, VDict (map (fun '(k0, v) => (VInt k0, f v)) sats))) d) s =
              option_map (fun sats => VDict (map (fun '(k0, v) => (VInt k0, f v)) sats)) (sget d s)).
  { unfold sget. induction d as [|[s' sats] d IH]; [reflexivity|]. cbn [map dget]. destruct (String.eqb s s'); [reflexivity|exact IH]. }
  rewrite E. destruct (sget d s) as [sats|]; [|reflexivity]. cbn [option_map]. rewrite jget_ints.
  destruct (zget sats k); reflexivity.
Qed.

(** Scaled observations: what stands at time / "obs" / quantity / signal / satellite is exactly
    what the object holds for them. *)
Theorem C40_observations : forall ctl o s k,
  let at_obs q := jpath (json_of ctl (OMsm (MsmScaled o)))
    [py_int_str (d_time (ob_hdr o) + d_day (ob_hdr o) * 86400000); ustr "obs"; ustr q; ustr s; py_int_str k] in
  at_obs "rng" = option_map JReal (entry (o_rng (ob_obs o)) s k) /\
  at_obs "phs" = option_map JReal (entry (o_phs (ob_obs o)) s k) /\
  at_obs "dpl" = option_map JReal (entry (o_dpl (ob_obs o)) s k) /\
  at_obs "c2n" = option_map JReal (entry (o_c2n (ob_obs o)) s k) /\
  at_obs "ltm" = option_map JInt (entry (o_ltm (ob_obs o)) s k) /\
  at_obs "hca" = option_map JBool (entry (o_hca (ob_obs o)) s k).
Proof.
  intros ctl o s k at_obs.
  assert (S : forall q v, sget (JsonModel.obs_slots (ob_obs o)) q = Some v -> at_obs q = jpath (jv_of v) [ustr s; py_int_str k]).
  { intros q v G. unfold at_obs, json_of. cbn [shown]. unfold observables_dict. cbv zeta.
    cbn [jpath]. rewrite jget_top. rewrite (jget_named _ "obs").
    replace (sget _ "obs") with (Some (named (JsonModel.obs_slots (ob_obs o))))
      by (destruct (enable_hdr_data ctl), (enable_aux_data ctl); reflexivity).
    cbn [option_map]. rewrite (jget_named _ q), G. reflexivity. }
  repeat split; (erewrite S; [|reflexivity]); apply by_signal_path.
Qed.
Print Assumptions C40_observations.

(** The header, if it is enabled. *)
Theorem C40_observations_header : forall ctl o, enable_hdr_data ctl = true ->
  let at_hdr q := jpath (json_of ctl (OMsm (MsmScaled o)))
    [py_int_str (d_time (ob_hdr o) + d_day (ob_hdr o) * 86400000); ustr "hdr"; ustr q] in
  at_hdr "time" = Some (JInt (d_time (ob_hdr o))) /\ at_hdr "day" = Some (JInt (d_day (ob_hdr o))) /\
  at_hdr "sats" = Some (JArr (map JInt (d_sats (ob_hdr o)))) /\
  forall s, jpath (json_of ctl (OMsm (MsmScaled o)))
    [py_int_str (d_time (ob_hdr o) + d_day (ob_hdr o) * 86400000); ustr "hdr"; ustr "signals"; ustr s] =
    option_map JReal (sget (d_signals (ob_hdr o)) s).
Proof.
  intros ctl o En at_hdr.
  assert (S : forall q v r, sget (hdr_slots (ob_hdr o)) q = Some v -> jpath (json_of ctl (OMsm (MsmScaled o)))
    (py_int_str (d_time (ob_hdr o) + d_day (ob_hdr o) * 86400000) :: ustr "hdr" :: ustr q :: r) = jpath (jv_of v) r).
  { intros q v r G. unfold json_of. cbn [shown]. unfold observables_dict. cbv zeta.
    cbn [jpath]. rewrite jget_top. rewrite En. rewrite (jget_named _ "hdr").
    replace (sget _ "hdr") with (Some (named (hdr_slots (ob_hdr o)))) by (destruct (enable_aux_data ctl); reflexivity).
    cbn [option_map]. rewrite (jget_named _ q), G. reflexivity. }
  unfold at_hdr. split; [erewrite S; [|reflexivity]; reflexivity|]. split; [erewrite S; [|reflexivity]; reflexivity|]. split.
  - erewrite S; [|reflexivity]. unfold JsonModel.ints. cbn [jpath jv_of]. now rewrite map_map.
  - intros s. erewrite S; [|reflexivity]. cbn [jpath]. rewrite jget_named. unfold sget.
    induction (d_signals (ob_hdr o)) as [|[s' f] d IH]; [reflexivity|]. cbn [map dget]. destruct (String.eqb s s'); [reflexivity|exact IH].
Qed.
Print Assumptions C40_observations_header.

(** Bare observations: the columns. *)
Definition bare_columns (b : bare_msm) : list (string * string * list Z) :=
  match b with
  | Bare4567 _ _ s g =>
      [("sat", "rng_ms", sat_rng_ms s); ("sat", "ext_info", sat_ext_info s); ("sat", "rng_rough", sat_rng_rough s);
       ("sat", "phase_rate_rough", sat_phase_rate_rough s); ("sgn", "rng_fine", sgn_rng_fine g);
       ("sgn", "phase_fine", sgn_phase_fine g); ("sgn", "lock_time", sgn_lock_time g); ("sgn", "hc_indc", sgn_hc_indc g);
       ("sgn", "c2n", sgn_c2n g); ("sgn", "phase_rate_fine", sgn_phase_rate_fine g)]
  | Bare123 _ _ s g =>
      [("sat", "rng_rough", sat1_rng_rough s); ("sgn", "rng_fine", sgn1_rng_fine g);
       ("sgn", "phase_fine", sgn1_phase_fine g); ("sgn", "lock_time", sgn1_lock_time g); ("sgn", "hc_indc", sgn1_hc_indc g)]
  end.
Theorem C40_bare_observations : forall ctl b block name column, In (block, name, column) (bare_columns b) ->
  jpath (json_of ctl (OMsm (MsmBare b))) [py_int_str (bare_time b); ustr block; ustr name] =
  Some (JArr (map JInt column)).
Proof.
  intros ctl b block name column I.
  assert (X : exists l, (block = "sat" /\ l = bare_sat_slots b \/ block = "sgn" /\ l = bare_sgn_slots b) /\
                        sget l name = Some (JsonModel.ints column)).
  { destruct b; cbn [bare_columns In] in I;
    repeat (destruct I as [I|I]; [injection I as <- <- <-; eexists; split; [first [left; split; reflexivity|right; split; reflexivity]|reflexivity]|]);
    destruct I. }
  destruct X as (l & B & G). unfold json_of. cbn [shown]. unfold bare_dict. cbn [jpath]. rewrite jget_top. rewrite (jget_named _ block).
  replace (sget _ block) with (Some (named l)).
  - cbn [option_map]. rewrite (jget_named _ name), G. unfold JsonModel.ints. cbn [option_map jv_of]. now rewrite map_map.
  - destruct B as [[-> ->]|[-> ->]]; destruct (enable_hdr_data ctl), (enable_aux_data ctl); reflexivity.
Qed.
Print Assumptions C40_bare_observations.

(** Concrete cases: the NavIC sample of the repository's tests has both kinds of members; a
    text, a schedule and biases; observations of a decoded MSM7. *)
Definition sample_ctl : json_controls := {| enable_hdr_data := true; enable_aux_data := false; enable_pretty_view := false |}.
Example C40_nonvacuous_eph :
  match subdecoder_eph true (eph_sample E1041) with
  | Ok (Some o) => jget (json_of sample_ctl (OPy o)) (ustr "msgNum") = Some (JInt 1041) /\
      (exists v, v <> 0 /\ jget (json_of sample_ctl (OPy o)) (ustr "sqrt_a") = Some (JInt v)) /\
      jget (json_of sample_ctl (OPy o)) (ustr "L5_Flag") = None
  | _ => False
  end.
Proof. vm_compute. split; [reflexivity|]. split; [|reflexivity]. eexists. split; [|reflexivity]. discriminate. Qed.
Example C40_nonvacuous_base :
  (match subdecoder_base false (first_frame sample_1005) with
   | Ok (Some o) => jget (json_of sample_ctl (OPy o)) (ustr "GPS_OK") = Some (JBool true)
   | _ => False end) /\
  (match subdecoder_base false (first_frame sample_1029) with
   | Ok (Some o) => match jget (json_of sample_ctl (OPy o)) (ustr "message") with Some (JStr (_ :: _)) => True | _ => False end
   | _ => False end) /\
  (match subdecoder_base true (first_frame sample_1230) with
   | Ok (Some o) => match jpath (json_of sample_ctl (OPy o)) [ustr "correction"; ustr "1C"] with Some (JInt _) => True | _ => False end
   | _ => False end) /\
  (sp_ok 1 2 3 (zlen sample_sched) 18 sample_sched /\ sample_sched <> []).
Proof.
  split; [vm_compute; reflexivity|]. split; [vm_compute; exact Logic.I|]. split; [vm_compute; exact Logic.I|].
  split; [|discriminate]. repeat split; try (vm_compute; congruence). repeat constructor; vm_compute; congruence.
Qed.
Example C40_nonvacuous_msm :
  match decode_msm17 false (first_frame sample_1077) with
  | Ok (Some (MsmScaled o)) =>
      existsb (fun k => match jpath (json_of sample_ctl (OMsm (MsmScaled o)))
        [py_int_str (d_time (ob_hdr o)); ustr "obs"; ustr "rng"; ustr "1C"; py_int_str k] with Some (JReal _) => true | _ => false end)
        (d_sats (ob_hdr o)) = true
  | _ => False end.
Proof. vm_compute. reflexivity. Qed.
