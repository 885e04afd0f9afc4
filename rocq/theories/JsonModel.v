(** * JsonModel: model of printers/json_printer.py. *)
From Coq Require Import Ascii.
From Verif Require Import PyBase PyDict PyFloat PyVal PyJson MsmModel EphModel BaseModel DecoderModel.
Local Open Scope string_scope.
Local Open Scope list_scope.
Local Open Scope Z_scope.

(** printers/json_printer.py:21-90 *)
Record json_spec := jspec { js_gnss : string; js_dir : string; js_classes : list string; js_file : string }.
Definition OBS_M123 : list string := ["ObservablesMSM"; "BareObservablesMSM123"].
Definition OBS_M4567 : list string := ["ObservablesMSM"; "BareObservablesMSM4567"].
Definition JSON_SPEC : list (Z * json_spec) :=
  [(1071, jspec "GPS" "MSM1" OBS_M123 "GPS-MSM1-1071.json");
   (1072, jspec "GPS" "MSM2" OBS_M123 "GPS-MSM2-1072.json");
   (1073, jspec "GPS" "MSM3" OBS_M123 "GPS-MSM3-1073.json");
   (1074, jspec "GPS" "MSM4" OBS_M4567 "GPS-MSM4-1074.json");
   (1075, jspec "GPS" "MSM5" OBS_M4567 "GPS-MSM5-1075.json");
   (1076, jspec "GPS" "MSM6" OBS_M4567 "GPS-MSM6-1076.json");
   (1077, jspec "GPS" "MSM7" OBS_M4567 "GPS-MSM7-1077.json");
   (1081, jspec "GLN" "MSM1" OBS_M123 "GLN-MSM1-1081.json");
   (1082, jspec "GLN" "MSM2" OBS_M123 "GLN-MSM2-1082.json");
   (1083, jspec "GLN" "MSM3" OBS_M123 "GLN-MSM3-1083.json");
   (1084, jspec "GLN" "MSM4" OBS_M4567 "GLN-MSM4-1084.json");
   (1085, jspec "GLN" "MSM5" OBS_M4567 "GLN-MSM5-1085.json");
   (1086, jspec "GLN" "MSM6" OBS_M4567 "GLN-MSM6-1086.json");
   (1087, jspec "GLN" "MSM7" OBS_M4567 "GLN-MSM7-1087.json");
   (1091, jspec "GAL" "MSM1" OBS_M123 "GAL-MSM1-1091.json");
   (1092, jspec "GAL" "MSM2" OBS_M123 "GAL-MSM2-1092.json");
   (1093, jspec "GAL" "MSM3" OBS_M123 "GAL-MSM3-1093.json");
   (1094, jspec "GAL" "MSM4" OBS_M4567 "GAL-MSM4-1094.json");
   (1095, jspec "GAL" "MSM5" OBS_M4567 "GAL-MSM5-1095.json");
   (1096, jspec "GAL" "MSM6" OBS_M4567 "GAL-MSM6-1096.json");
   (1097, jspec "GAL" "MSM7" OBS_M4567 "GAL-MSM7-1097.json");
   (1101, jspec "SBS" "MSM1" OBS_M123 "SBS-MSM1-1101.json");
   (1102, jspec "SBS" "MSM2" OBS_M123 "SBS-MSM2-1102.json");
   (1103, jspec "SBS" "MSM3" OBS_M123 "SBS-MSM3-1103.json");
   (1104, jspec "SBS" "MSM4" OBS_M4567 "SBS-MSM4-1104.json");
   (1105, jspec "SBS" "MSM5" OBS_M4567 "SBS-MSM5-1105.json");
   (1106, jspec "SBS" "MSM6" OBS_M4567 "SBS-MSM6-1106.json");
   (1107, jspec "SBS" "MSM7" OBS_M4567 "SBS-MSM7-1107.json");
   (1111, jspec "QZS" "MSM1" OBS_M123 "QZS-MSM1-1111.json");
   (1112, jspec "QZS" "MSM2" OBS_M123 "QZS-MSM2-1112.json");
   (1113, jspec "QZS" "MSM3" OBS_M123 "QZS-MSM3-1113.json");
   (1114, jspec "QZS" "MSM4" OBS_M4567 "QZS-MSM4-1114.json");
   (1115, jspec "QZS" "MSM5" OBS_M4567 "QZS-MSM5-1115.json");
   (1116, jspec "QZS" "MSM6" OBS_M4567 "QZS-MSM6-1116.json");
   (1117, jspec "QZS" "MSM7" OBS_M4567 "QZS-MSM7-1117.json");
   (1121, jspec "BDS" "MSM1" OBS_M123 "BDS-MSM1-1121.json");
   (1122, jspec "BDS" "MSM2" OBS_M123 "BDS-MSM2-1122.json");
   (1123, jspec "BDS" "MSM3" OBS_M123 "BDS-MSM3-1123.json");
   (1124, jspec "BDS" "MSM4" OBS_M4567 "BDS-MSM4-1124.json");
   (1125, jspec "BDS" "MSM5" OBS_M4567 "BDS-MSM5-1125.json");
   (1126, jspec "BDS" "MSM6" OBS_M4567 "BDS-MSM6-1126.json");
   (1127, jspec "BDS" "MSM7" OBS_M4567 "BDS-MSM7-1127.json");
   (1131, jspec "NAVIC" "MSM1" OBS_M123 "NAVIC-MSM1-1131.json");
   (1132, jspec "NAVIC" "MSM2" OBS_M123 "NAVIC-MSM2-1132.json");
   (1133, jspec "NAVIC" "MSM3" OBS_M123 "NAVIC-MSM3-1133.json");
   (1134, jspec "NAVIC" "MSM4" OBS_M4567 "NAVIC-MSM4-1134.json");
   (1135, jspec "NAVIC" "MSM5" OBS_M4567 "NAVIC-MSM5-1135.json");
   (1136, jspec "NAVIC" "MSM6" OBS_M4567 "NAVIC-MSM6-1136.json");
   (1137, jspec "NAVIC" "MSM7" OBS_M4567 "NAVIC-MSM7-1137.json");
   (1019, jspec "GPS" "EPH" ["EphGPS"] "GPS-EPH-1019.json");
   (1020, jspec "GLN" "EPH" ["EphGLO"] "GLN-EPH-1020.json");
   (1041, jspec "NAVIC" "EPH" ["EphNAVIC"] "NAVIC-EPH-1041.json");
   (1042, jspec "BDS" "EPH" ["EphBDS"] "BDS-EPH-1042.json");
   (1044, jspec "QZS" "EPH" ["EphQZS"] "QZS-EPH-1044.json");
   (1045, jspec "GAL" "EPH" ["EphGALF"] "GAL-EPH-1045.json");
   (1046, jspec "GAL" "EPH" ["EphGALI"] "GAL-EPH-1046.json");
   (1005, jspec "X" "BASE" ["BaseRP"] "RefPoint-1005.json");
   (1006, jspec "X" "BASE" ["BaseRPH"] "RefPointHeight-1006.json");
   (1007, jspec "X" "BASE" ["BaseAD"] "AntDesc-1007.json");
   (1008, jspec "X" "BASE" ["BaseADSN"] "AntDescSer-1008.json");
   (1013, jspec "X" "BASE" ["BaseSP"] "SysPar-1013.json");
   (1029, jspec "X" "BASE" ["BaseTS"] "TextStr-1029.json");
   (1033, jspec "X" "BASE" ["BaseADSNRC"] "AntAndRcvDesc-1033.json");
   (1230, jspec "X" "BASE" ["BaseGLBS"] "GloBias-1230.json")].

(** printers/json_printer.py:93-101 [JSONControls] *)
Record json_controls := { enable_hdr_data : bool; enable_aux_data : bool; enable_pretty_view : bool }.

(** printers/json_printer.py:127-129: [actual_spec] *)
Definition json_actual : list string := flat_map (fun kv => js_classes (snd kv)) JSON_SPEC.

(** ** JSONCore *)

(** Dictionaries that the code builds from [__slots__] or from attributes.
    (printers/json_printer.py:233-325) *)
Definition named (l : list (string * pyval)) : pyval := VDict (map (fun '(n, v) => (vstr n, v)) l).
(** printers/json_printer.py:233-325 *)
Definition ints (l : list Z) : pyval := VTuple (map VInt l).
(** signal -> satellite -> value; printers/json_printer.py:233-325 *)
Definition by_signal {V} (f : V -> pyval) (d : obs_dict V) : pyval :=
  named (map (fun '(s, sats) => (s, VDict (map (fun '(k, v) => (VInt k, f v)) sats))) d).

(** gnss_types/observables.py:113-142, [__slots__] of [_ObservablesObs] *)
Definition obs_slots (o : obs) : list (string * pyval) :=
  [("rng", by_signal VFloat (o_rng o)); ("phs", by_signal VFloat (o_phs o));
   ("ltm", by_signal VInt (o_ltm o)); ("hca", by_signal VBool (o_hca o));
   ("dpl", by_signal VFloat (o_dpl o)); ("c2n", by_signal VFloat (o_c2n o))].
(** gnss_types/observables.py:93 *)
Definition hdr_slots (h : hdr_msm) : list (string * pyval) :=
  [("signals", named (map (fun '(s, f) => (s, VFloat f)) (d_signals h))); ("sats", ints (d_sats h));
   ("time", VInt (d_time h)); ("day", VInt (d_day h))].
(** gnss_types/observables.py:164-188 *)
Definition coded (p : Z * string) : pyval := named [("code", VInt (fst p)); ("val", vstr (snd p))].
Definition aux_slots (x : aux_msm) : list (string * pyval) :=
  [("rs_id", VInt (x_rs_id x)); ("MMB", VInt (x_MMB x)); ("IODS", VInt (x_IODS x));
   ("clk_steer", coded (x_clk_steer x)); ("clk_ext", coded (x_clk_ext x));
   ("smth_indc", coded (x_smth_indc x)); ("smth_intr", coded (x_smth_intr x))].
(** gnss_types/observables.py:39 *)
Definition atr_slots (a : attributes) : list (string * pyval) :=
  [("gnss", vstr (a_gnss a)); ("subset", vstr (a_subset a)); ("msg_number", VInt (a_msg_number a))].
(** gnss_types/observables.py:207-219 *)
Definition bare_hdr_slots (h : bare_hdr) : list (string * pyval) :=
  [("rs_id", VInt (h_rs_id h)); ("time", VInt (h_time h)); ("MMB", VInt (h_MMB h));
   ("IODS", VInt (h_IODS h)); ("clk_steer", VInt (h_clk_steer h)); ("clk_ext", VInt (h_clk_ext h));
   ("smth_indc", VInt (h_smth_indc h)); ("smth_intr", VInt (h_smth_intr h));
   ("sat_mask", VInt (h_sat_mask h)); ("sgn_mask", VInt (h_sgn_mask h));
   ("cell_mask", VInt (h_cell_mask h))].
(** gnss_types/observables.py:242, 258-265, 312, 325 *)
Definition bare_sat_slots (b : bare_msm) : list (string * pyval) :=
  match b with
  | Bare4567 _ _ s _ =>
      [("rng_ms", ints (sat_rng_ms s)); ("ext_info", ints (sat_ext_info s));
       ("rng_rough", ints (sat_rng_rough s)); ("phase_rate_rough", ints (sat_phase_rate_rough s))]
  | Bare123 _ _ s _ => [("rng_rough", ints (sat1_rng_rough s))]
  end.
Definition bare_sgn_slots (b : bare_msm) : list (string * pyval) :=
  match b with
  | Bare4567 _ _ _ g =>
      [("rng_fine", ints (sgn_rng_fine g)); ("phase_fine", ints (sgn_phase_fine g));
       ("lock_time", ints (sgn_lock_time g)); ("hc_indc", ints (sgn_hc_indc g));
       ("c2n", ints (sgn_c2n g)); ("phase_rate_fine", ints (sgn_phase_rate_fine g))]
  | Bare123 _ _ _ g =>
      [("rng_fine", ints (sgn1_rng_fine g)); ("phase_fine", ints (sgn1_phase_fine g));
       ("lock_time", ints (sgn1_lock_time g)); ("hc_indc", ints (sgn1_hc_indc g))]
  end.

Definition if_enabled (b : bool) (l : list (string * pyval)) : list (string * pyval) := if b then l else [].

(** printers/json_printer.py:233-277 [ObservablesMSMtoPrintBuffer]: the dictionary. *)
Definition observables_dict (ctl : json_controls) (o : observables) : pyval :=
  let time := d_time (ob_hdr o) + d_day (ob_hdr o) * 86400000 in
  VDict [(VInt time, named
    (if_enabled (enable_hdr_data ctl) [("hdr", named (hdr_slots (ob_hdr o)))] ++
     if_enabled (enable_aux_data ctl) [("aux", named (aux_slots (ob_aux o)))] ++
     [("obs", named (obs_slots (ob_obs o)))]))].

(** printers/json_printer.py:279-325 [BareObservablesMSMtoPrintBuffer]: the dictionary. *)
Definition bare_dict (ctl : json_controls) (b : bare_msm) : pyval :=
  VDict [(VInt (bare_time b), named
    (if_enabled (enable_hdr_data ctl) [("hdr", named (bare_hdr_slots (bare_header b)))] ++
     if_enabled (enable_aux_data ctl) [("aux", named (atr_slots (bare_atr b)))] ++
     [("sat", named (bare_sat_slots b)); ("sgn", named (bare_sgn_slots b))]))].

(** [fields(cls)] of the data classes; None for other classes.
    ([dataclasses.fields], printers/json_printer.py:327-332) *)
Definition dataclass_fields (cls : string) : option (list string) :=
  match eph_fields cls, map fst (base_fields cls) with
  | [], [] => None
  | [], l => Some l
  | l, _ => Some l
  end.
(** printers/json_printer.py:327-332 [is_json_dataclass] *)
Definition is_json_dataclass (cls : string) : bool :=
  match dataclass_fields cls with Some l => existsb (String.eqb "msgNum") l | None => false end.

(** [dataclasses.asdict(o)]: the fields, in order; nested dictionaries, tuples and lists are
    copied.  (None of the fields is itself a data class.);
    [asdict], printers/json_printer.py:334-353 *)
Fixpoint get_fields (o : pyobj) (l : list string) : res (list (string * pyval)) :=
  match l with
  | [] => Ok []
  | n :: r => v <- eph_getattr o n ;; d <- get_fields o r ;; Ok ((n, v) :: d)
  end.
(** printers/json_printer.py:334-353 *)
Definition asdict (o : pyobj) : res pyval :=
  match dataclass_fields (po_class o) with
  | None => Err EType
  | Some l => d <- get_fields o l ;; Ok (named d)
  end.

(** printers/json_printer.py:233-353, the argument [indent] *)
Definition indent_of (ctl : json_controls) : option Z := if enable_pretty_view ctl then Some 2 else None.

(** The [try ... except AttributeError/TypeError/Exception] of the three functions turns every
    exception into an AssertionError. (printers/json_printer.py:233-353) *)
Definition as_assert {A} (r : res A) : res A := match r with Ok a => Ok a | Err _ => Err EAssert end.

(** printers/json_printer.py:198-214: the text and the message number of an object. *)
Definition data_string (ctl : json_controls) (x : rtcm_obj) : res (list Z * pyval) :=
  match x with
  | OMsm (MsmScaled o) =>
      t <- as_assert (json_dumps (indent_of ctl) (observables_dict ctl o)) ;;
      Ok (t, VInt (a_msg_number (ob_atr o)))
  | OMsm (MsmBare b) =>
      t <- as_assert (json_dumps (indent_of ctl) (bare_dict ctl b)) ;;
      Ok (t, VInt (a_msg_number (bare_atr b)))
  | OPy p =>
      if is_json_dataclass (po_class p) then
        t <- as_assert (d <- asdict p ;; json_dumps (indent_of ctl) d) ;;
        n <- eph_getattr p "msgNum" ;;
        Ok (t, n)
      else Err EAssert
  end.

(** ** PrintJSON *)

(** printers/json_printer.py:117-121: the opened files [__ofiles] (message number -> path of the
    file behind the descriptor) and the part of the file system below the working directory.
    What is written is in the file: buffers are flushed by [close]. *)
Record json_printer := { jp_open : list (Z * string); jp_files : list (string * list Z) }.
Definition json_init : json_printer := {| jp_open := []; jp_files := [] |}.

(** File operations: [open(path, "w")] of the file of a message number, [write].
    (printers/json_printer.py:156-192) *)
Inductive file_op := OpOpen (num : Z) (path : string) | OpWrite (num : Z) (text : list Z).

(** printers/json_printer.py:156-192 *)
Definition do_op (can_create : string -> bool) (st : json_printer) (op : file_op) : json_printer * res unit :=
  match op with
  | OpOpen num path =>
      if can_create path
      then ({| jp_open := zset (jp_open st) num path; jp_files := sset (jp_files st) path [] |}, Ok tt)
      else (st, Err EAssert)
  | OpWrite num text =>
      match zget (jp_open st) num with
      | None => (st, Err EKey)
      | Some path =>
          ({| jp_open := jp_open st;
              jp_files := sset (jp_files st) path
                (match sget (jp_files st) path with Some c => c | None => [] end ++ text) |}, Ok tt)
      end
  end.
(** printers/json_printer.py:156-192 *)
Fixpoint do_ops (can_create : string -> bool) (st : json_printer) (ops : list file_op) : json_printer * res unit :=
  match ops with
  | [] => (st, Ok tt)
  | op :: r => match do_op can_create st op with
               | (st, Ok _) => do_ops can_create st r
               | (st, Err e) => (st, Err e)
               end
  end.

(** printers/json_printer.py:168-174: path below the working directory. *)
Definition json_path (s : json_spec) : string := (js_dir s ++ "/" ++ js_file s)%string.

(** printers/json_printer.py:165-192 [__create_ofile], [__append]: the file operations in the
    order of their execution. *)
Definition append_ops (st : json_printer) (cls : string) (num : Z) (path : string) (line : list Z)
  : list file_op :=
  match zget (jp_open st) num with
  | Some _ => [OpWrite num line]
  | None =>
      [OpOpen num path;
       OpWrite num ([91; 13] ++ json_text None 0 (named [("source_type", vstr cls)]));
       OpWrite num line]
  end.

(** printers/json_printer.py:195-221 [__print] up to the file operations. *)
Definition print_ops (ctl : json_controls) (st : json_printer) (x : rtcm_obj) : res (list file_op) :=
  '(text, n) <- data_string ctl x ;;
  match n with
  | VInt num =>
      match zget JSON_SPEC num with
      | None => Err EAssert
      | Some s => Ok (append_ops st (class_of x) num (json_path s) ([44; 13] ++ text))
      end
  | _ => Err EAssert
  end.
Definition json_print (ctl : json_controls) (can_create : string -> bool) (st : json_printer)
    (x : rtcm_obj) : json_printer * res unit :=
  match print_ops ctl st x with
  | Err e => (st, Err e)
  | Ok ops => do_ops can_create st ops
  end.

(** printers/json_printer.py:156-163 [__close] *)
Definition json_close (st : json_printer) : json_printer :=
  {| jp_open := [];
     jp_files := fold_left (fun fs '(_, path) =>
       sset fs path (match sget fs path with Some c => c | None => [] end ++ [13; 93])) (jp_open st) (jp_files st) |}.
