(** * DocumentsSpec: what the JSON files of a source show of its messages.

    Messages are those of EphSpec, BaseSpec and MsmSpec; JSON values are those of JsonSpec. *)
From Coq Require Import Reals.
From Flocq Require Import Core BinarySingleNaN.
From Verif Require Import PyBase PyDict PyFloat PyVal PyFormat PyJson JsonSpec BitsSpec MessageSpec DecoderSpec EphSpec BaseSpec
  MsmModel MsmSpec MsmScaleSpec JsonModel JsonFileSpec JsonFields TransmissionSpec.
Local Open Scope string_scope.
Local Open Scope list_scope.
Local Open Scope Z_scope.

(** ** Messages *)
Inductive message :=
| MEph (t : eph_msg) (payload : list Z)
| MPos (t : rp_msg) (payload : list Z)
| MText (m : text_msg)
| MSched (id mjd sec leap : Z) (l : list announcement)
| MBias (id c reserved : Z) (b : biases)
| MMsm (m : msm).

Definition text_number (m : text_msg) : Z :=
  match m with T1007 _ _ _ => 1007 | T1008 _ _ _ _ => 1008 | T1033 _ _ _ _ _ _ _ => 1033 | T1029 _ _ _ _ _ => 1029 end.
Definition message_number (x : message) : Z :=
  match x with
  | MEph t _ => eph_number t | MPos t _ => rp_number t | MText m => text_number m
  | MSched _ _ _ _ _ => 1013 | MBias _ _ _ _ => 1230 | MMsm m => msm_number (m_gnss m) (m_type m)
  end.

(** The frame brings this message; [bare]: for the bare format.  Not brought are 1044 (C22), texts
    with empty or undecodable strings (C27) and schedules with Nm = 0 (C28), for the scaled formats
    also observations with unknown signals (C15). *)
Definition brings (bare : bool) (f : list Z) (x : message) : Prop :=
  match x with
  | MEph t payload => t <> E1044 /\ announces payload t /\ eph_bytes t <= zlen payload /\ exists crc, transport_frame f payload crc
  | MPos t payload => BaseSpec.numbered payload (rp_number t) /\ zlen payload = rp_bytes t /\ exists crc, transport_frame f payload crc
  | MText m => BaseSpec.text_ok m /\ carries f (text_bits m) /\
      (bare = false -> Forall (fun s => s <> [] /\ exists t, unicode t /\ s = utf8 t) (text_strings m))
  | MSched id mjd sec leap l => sp_ok id mjd sec (zlen l) leap l /\ l <> [] /\ carries f (sp_bits id mjd sec (zlen l) leap l)
  | MBias id c reserved b => glbs_ok id c b /\ carries f (glbs_bits id c reserved b)
  | MMsm m => msm_ok m /\ msm_nonempty m /\ passes_length_check m /\ carries f (msm_bits m) /\
      (bare = false -> forall k, In k (m_sigs m) -> signal_code (m_gnss m) k <> None)
  end.

Inductive receives (bare : bool) : list Z -> option message -> Prop :=
| receives_some f x : brings bare f x -> receives bare f (Some x)
| receives_none f : (forall x, ~ brings bare f x) -> receives bare f None.
Definition received (l : list (option message)) : list message :=
  flat_map (fun o => match o with Some x => [x] | None => [] end) l.

(** ** What a JSON value shows *)

(** Columns of an observation message, by name. *)
Definition sat_names (t : msm_type) : list (string * (sat_data -> Z)) :=
  match t with
  | MSM1 | MSM2 | MSM3 => [("rng_rough", sd_rough)]
  | MSM4 | MSM6 => [("rng_ms", sd_ms); ("rng_rough", sd_rough)]
  | MSM5 | MSM7 => [("rng_ms", sd_ms); ("ext_info", sd_ext); ("rng_rough", sd_rough); ("phase_rate_rough", sd_rate)]
  end.
Definition cell_names (t : msm_type) : list (string * (cell_data -> Z)) :=
  (if has_range t then [("rng_fine", cd_rng)] else []) ++
  (if has_phase t then [("phase_fine", cd_phs); ("lock_time", cd_lock); ("hc_indc", cd_half)] else []) ++
  (if has_cnr t then [("c2n", cd_cnr)] else []) ++ (if has_rate t then [("phase_rate_fine", cd_rate)] else []).

(** Physical values of a cell: pseudorange and phase range in metres, phase range rate in m/s,
    carrier-to-noise density in dBHz, lock time in ms, ambiguity of the half cycle. *)
Section Cell.
Context (t : msm_type) (before : list (option cell_data)) (s : sat_data) (c : cell_data).
Definition pseudorange : option R :=
  if has_range t && rough_known t s && negb (range_invalid t c)
  then Some (to_metres (rough_value t s + IZR (cd_rng c) / 2 ^ (if extended t then 29 else 24)))%R else None.
Definition has_phase_value : bool :=
  has_phase t && rough_known t s && negb (phase_invalid t c) && negb (blocked t before c).
Definition phaserange : option R :=
  if has_phase_value then Some (to_metres (rough_value t s + IZR (cd_phs c) / 2 ^ (if extended t then 31 else 29)))%R else None.
Definition rate : option R :=
  if has_rate t && negb (marks_invalid 14 (sd_rate s)) && negb (marks_invalid 15 (cd_rate c))
  then Some (IZR (sd_rate s) + IZR (cd_rate c) / 10000)%R else None.
Definition density : option R :=
  if has_cnr t then Some (IZR (cd_cnr c) / (if extended t then 16 else 1))%R else None.
Definition lock : option Z := if has_cnr t || has_phase_value then Some (lock_ms t (cd_lock c)) else None.
Definition half : option bool := if has_cnr t || has_phase_value then Some (negb (cd_half c =? 0)) else None.
End Cell.
Definition of_sent {V} (val : msm_type -> list (option cell_data) -> sat_data -> cell_data -> option V) (m : msm) (sgn : string) (sat : Z) : option V :=
  match cell m sgn sat with Some (b, s, c) => val (m_type m) b s c | None => None end.

(** A member that is a number near the value; no member if there is none. *)
Definition is_real (r : option R) (v : option jv) : Prop :=
  match r with
  | None => v = None
  | Some r => exists x, v = Some (JReal x) /\ is_finite_SF x = true /\ (Rabs (SF2R radix2 x - r) <= / 10000000)%R
  end.

(** Headers: present if the controls ask for them. *)
Definition part (on : bool) (v : option jv) (shows : jv -> Prop) : Prop :=
  if on then exists p, v = Some p /\ shows p else v = None.
Definition header_fields (m : msm) : list (string * Z) :=
  [("rs_id", m_station m); ("time", m_epoch m); ("MMB", m_multiple m); ("IODS", m_iods m); ("clk_steer", m_steering m);
   ("clk_ext", m_ext_clock m); ("smth_indc", m_smooth m); ("smth_intr", m_smooth_int m);
   ("sat_mask", lsb_value (mask_bits 64 (map sd_id (m_sats m)))); ("sgn_mask", lsb_value (mask_bits 32 (m_sigs m)));
   ("cell_mask", lsb_value (cell_bits m))].
Definition sends_signal (m : msm) (sgn : string) : bool :=
  existsb (fun k => match signal_code (m_gnss m) k with Some c => String.eqb c sgn | None => false end) (m_sigs m).
Definition meaning (texts : list string) (other : string) (code : Z) : string := nth (Z.to_nat code) texts other.
Definition coded_fields (m : msm) : list (string * Z * string) :=
  [("clk_steer", m_steering m, meaning ["OFF"; "ON"] "UNDEF" (m_steering m));
   ("clk_ext", m_ext_clock m, meaning ["INTERNAL"; "EXT-LOCK"; "EXT-UNLOCK"] "UNDEF" (m_ext_clock m));
   ("smth_indc", m_smooth m, meaning ["UNDEF"; "DVRG-FREE"] "UNDEF" (m_smooth m));
   ("smth_intr", m_smooth_int m, meaning ["NOSMTH"; "00-30"; "30-60"; "60-120"; "120-240"; "240-480"; "480+"] "UNLIM" (m_smooth_int m))].
Definition shows_header (bare : bool) (m : msm) (h : jv) : Prop :=
  if bare then forall n z, In (n, z) (header_fields m) -> jget h (ustr n) = Some (JInt z)
  else jget h (ustr "time") = Some (JInt (epoch_time m)) /\ jget h (ustr "day") = Some (JInt (epoch_day m)) /\
    jget h (ustr "sats") = Some (JArr (map (fun s => JInt (sd_id s)) (m_sats m))) /\
    forall sgn, is_real (if sends_signal m sgn then Some (IZR (band_hz (m_gnss m) sgn) / 1000000)%R else None) (jpath h [ustr "signals"; ustr sgn]).
Definition shows_aux (bare : bool) (m : msm) (a : jv) : Prop :=
  if bare then jget a (ustr "gnss") = Some (JStr (ustr (gnss_letter (m_gnss m)))) /\ jget a (ustr "subset") = Some (JStr (ustr (type_name (m_type m)))) /\
    jget a (ustr "msg_number") = Some (JInt (msm_number (m_gnss m) (m_type m)))
  else jget a (ustr "rs_id") = Some (JInt (m_station m)) /\ jget a (ustr "MMB") = Some (JInt (m_multiple m)) /\ jget a (ustr "IODS") = Some (JInt (m_iods m)) /\
    forall n z t, In (n, z, t) (coded_fields m) -> jpath a [ustr n; ustr "code"] = Some (JInt z) /\ jpath a [ustr n; ustr "val"] = Some (JStr (ustr t)).
Definition shows_headers (ctl : json_controls) (bare : bool) (m : msm) (v : jv) : Prop :=
  let key := py_int_str (if bare then epoch_time m else epoch_time m + epoch_day m * 86400000) in
  (exists body, v = JObj [(key, body)]) /\
  part (enable_hdr_data ctl) (jpath v [key; ustr "hdr"]) (shows_header bare m) /\
  part (enable_aux_data ctl) (jpath v [key; ustr "aux"]) (shows_aux bare m).

Definition shows_msm (ctl : json_controls) (bare : bool) (m : msm) (v : jv) : Prop :=
  shows_headers ctl bare m v /\
  if bare then
    (forall name get, In (name, get) (sat_names (m_type m)) ->
       jpath v [py_int_str (epoch_time m); ustr "sat"; ustr name] = Some (JArr (map (fun s => JInt (get s)) (m_sats m)))) /\
    (forall name get, In (name, get) (cell_names (m_type m)) ->
       jpath v [py_int_str (epoch_time m); ustr "sgn"; ustr name] = Some (JArr (map (fun c => JInt (get c)) (m_cells m))))
  else forall sgn sat,
    let at_obs q := jpath v [py_int_str (epoch_time m + epoch_day m * 86400000); ustr "obs"; ustr q; ustr sgn; py_int_str sat] in
    is_real (of_sent (fun t _ s c => pseudorange t s c) m sgn sat) (at_obs "rng") /\
    is_real (of_sent phaserange m sgn sat) (at_obs "phs") /\
    is_real (of_sent (fun t _ s c => rate t s c) m sgn sat) (at_obs "dpl") /\
    is_real (of_sent (fun t _ _ c => density t c) m sgn sat) (at_obs "c2n") /\
    at_obs "ltm" = option_map JInt (of_sent lock m sgn sat) /\
    at_obs "hca" = option_map JBool (of_sent half m sgn sat).

(** The flags of 1041 have no member (C40). *)
Definition kept (t : eph_msg) (n : string) : Prop := t = E1041 -> n <> "L5_Flag" /\ n <> "S_Flag".

Definition shows_element (ctl : json_controls) (bare : bool) (x : message) (v : jv) : Prop :=
  match x with
  | MEph t payload => forall n z, In (n, z) (fields_of (layout t) (bits_of payload)) -> kept t n ->
      exists p, jget v (ustr n) = Some (jv_of p) /\ if bare then p = VInt z else reports (unit_of t n) z p
  | MPos t payload => forall n z, In (n, z) (fields_of (rp_layout t) (bits_of payload)) ->
      exists p, jget v (ustr n) = Some (jv_of p) /\ if bare then p = VInt z else rp_reports n z p
  | MText m => exists show,
      (forall s, In s (text_strings m) -> if bare then show s = hex_listing s else exists t, unicode t /\ s = utf8 t /\ show s = VStr t) /\
      forall n p, In (n, p) (text_attrs show m) -> jget v (ustr n) = Some (jv_of p)
  | MSched id mjd sec leap l =>
      (forall n z, In (n, z) [("msgNum", 1013); ("bsID", id); ("modifiedJulianDay", mjd); ("daySec", sec); ("Nm", zlen l); ("leapSec", leap)] ->
         jget v (ustr n) = Some (JInt z)) /\
      forall n, match BaseSpec.announced l n with
        | Some a => exists e, jpath v [ustr "shedule"; py_int_str n] = Some (jv_of e) /\ if bare then bare_announcement a e else scaled_announcement a e
        | None => jpath v [ustr "shedule"; py_int_str n] = None
        end
  | MBias id c _ b =>
      jget v (ustr "msgNum") = Some (JInt 1230) /\ jget v (ustr "bsID") = Some (JInt id) /\
      jget v (ustr "isCorrected") = Some (if bare then JInt c else JBool (c =? 1)) /\
      forall n o, In (n, o) (bias_list b) ->
        jpath v [ustr "validity"; ustr n] = Some (if bare then JInt (if BaseSpec.present o then 1 else 0) else JBool (BaseSpec.present o)) /\
        exists p, jpath v [ustr "correction"; ustr n] = Some (jv_of p) /\
          if bare then p = VInt (value_or_0 o) else reports (Decimal 2 1) (value_or_0 o) p
  | MMsm m => shows_msm ctl bare m v
  end.

(** ** Files *)

(** Which messages have an element in JSON files. *)
Definition in_json (mode : string) (x : message) : bool :=
  match x with
  | MMsm _ => String.eqb mode "JSON" || String.eqb mode "JSON-B"
  | _ => negb (String.eqb mode "MARGO")
  end.
(** The message has an element in the JSON file of the number [num]. *)
Definition element_of (mode : string) (num : Z) (x : message) : bool := in_json mode x && (message_number x =? num).
(** The text is a JSON array: first the name of the class of the objects, then one element for
    each message, in order, that shows it. *)
Definition json_file (ctl : json_controls) (bare : bool) (num : Z) (l : list message) (text : list Z) : Prop :=
  exists cls els, DecoderSpec.announced bare num = Some cls /\
    read_json text = Some (JArr (JObj [(ustr "source_type", JStr (ustr cls))] :: els)) /\
    Forall2 (shows_element ctl bare) l els.
