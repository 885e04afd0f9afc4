(** * LogSpec: what the log of a conversion is supposed to say (C61, C62).

    A line is a level and a text.  The texts of paths and exceptions are parameters. *)
From Flocq Require Import BinarySingleNaN.
From Verif Require Import PyBase PyDict PyFloat PyVal PyFormat FormatSpec MsmModel MsmSpec MsmScaleSpec DecoderModel DecoderSpec MargoModel MargoSpec
  MargoFiles JsonModel JsonFileSpec PrinterModel PrinterSpec MainModel MainSpec ControlsModel SessionModel LogModel.
Local Open Scope string_scope.
Local Open Scope list_scope.
Local Open Scope Z_scope.

Definition starts (p : string) (t : text) : Prop := exists r, t = ustr p ++ r.
Definition number (n : Z) : text := py_int_str n.
(** "Msg 1019. " *)
Definition about (n : Z) : text := ustr "Msg " ++ number n ++ ustr ". ".

(** ** Frames *)

(** The name of the part of the program that handles a message. *)
Definition handled_by (n : Z) : string :=
  if is_msm n then if n mod 10 <=? 3 then "MSM13O" else "MSM47O"
  else if existsb (Z.eqb n) [1019; 1020; 1041; 1042; 1044; 1045; 1046] then "EPH" else "BASE".

(** What the line about a decoded message says after "Decoding succeeded": of observations the
    time and the number of satellites. *)
Definition summary (o : rtcm_obj) : text :=
  match o with
  | OMsm r =>
      let '(time, sats) := match r with
                           | MsmBare b => (bare_time b, bit_count (h_sat_mask (bare_header b)))
                           | MsmScaled x => (d_time (ob_hdr x), zlen (d_sats (ob_hdr x)))
                           end in
      ustr ". t = " ++ number time ++ ustr ", sats = " ++ number sats ++ ustr "."
  | OPy p => if String.prefix "Eph" (po_class p) then ustr "." else []
  end.

(** Remarks on missing measurements and on undefined biases. *)
Definition remark (x : line) : Prop :=
  (fst x = LWarning /\ (starts "No coarse " (snd x) \/ starts "Msg 1230. Field " (snd x))) \/
  (fst x = LInfo /\ starts "No fine " (snd x)).

(** Messages that can give rise to remarks: biases, and observations that are converted to
    physical units. *)
Definition may_remark (bare : bool) (n : Z) : Prop := n = 1230 \/ (is_msm n = true /\ bare = false).

(** The line about a message that cannot be decoded. *)
Definition complaint (n : Z) (t : text) : Prop :=
  (exists r, t = about n ++ ustr "Decoding failed" ++ r) \/
  (exists k r, In k ["Indexing"; "Arithmetic"; "Undefined"] /\ is_msm n = true /\
     t = ustr (k ++ " error in get_scaled_obs() ") ++ r).

(** The lines about one frame, in a mode. *)
Inductive story (mode : string) (f : list Z) : list line -> Prop :=
| story_unknown n : has_number f n -> ~ served (map Register (decoders_of mode)) f ->
    story mode f [(LInfo, ustr "Decoder not found, message " ++ number n)]
| story_decoded n o rs : has_number f n -> answer (map Register (decoders_of mode)) f = Ok (Some o) ->
    Forall remark rs -> (rs <> [] -> may_remark (is_bare mode) n) ->
    story mode f (rs ++ [(LInfo, about n ++ ustr "Decoding succeeded" ++ summary o)])
| story_failed n rs e : has_number f n -> served (map Register (decoders_of mode)) f ->
    answer (map Register (decoders_of mode)) f = Ok None ->
    Forall remark rs -> (rs <> [] -> may_remark (is_bare mode) n) -> complaint n e ->
    story mode f (rs ++ [(LError, e);
      (LWarning, ustr "Decoder " ++ ustr (handled_by n) ++ ustr " returned unexpected result for msg " ++ number n)]).

(** ** Printed objects *)
Section Printed.
(** Path of an observation file, text of the error of creating it, text of a failed assertion. *)
Variable path_text error_text : string -> text.
Variable assertion : rtcm_obj -> text.
Variable mode : string.
Variable env : os.
Variable ctl : boxed_controls.

(** Two lines for a file that cannot be created. *)
Definition not_created (f : string) : list line :=
  [(LError, ustr "Failed to create target file '" ++ path_text f ++ ustr "'."); (LError, error_text f)].

(** The lines about an object that is printed when the objects [before] have been printed.  An
    object for a JSON file leaves a line exactly if it is refused.  Observations leave two lines
    for every file that lacks: one of their rows belongs in it, but neither now nor for any
    earlier row could it be created. *)
Inductive printed (before : list rtcm_obj) (o : rtcm_obj) : list line -> Prop :=
| printed_json st rs r : family_of mode o = JsonFiles ->
    print_session (box_json ctl) json_init (delivered_to JsonFiles mode env 0 (before ++ [o])) = (st, rs ++ [r]) ->
    printed before o (match r with Ok _ => [] | Err _ => [(LError, assertion o)] end)
| printed_obs hist e fs : family_of mode o = ObsFiles ->
    Forall2 is_event (hist ++ [e]) (delivered_to ObsFiles mode env 0 (before ++ [o])) -> Forall event_ok (hist ++ [e]) ->
    NoDup fs ->
    (forall f, In f fs <-> exists p sgn, In sgn (map snd (signal_codes (pe_gnss e))) /\ f = obs_file (pe_gnss e) p sgn (pe_type e) /\
       goes_here (box_margo ctl) (pe_gnss e) p sgn (pe_type e) e = true /\
       recorded (box_margo ctl) (pe_gnss e) p sgn (pe_type e) (hist ++ [e]) = []) ->
    printed before o (flat_map not_created fs).

(** The lines about a sequence of frames. *)
Inductive told : list (list Z) -> list line -> Prop :=
| told_nil : told [] []
| told_nothing fs ls f l : told fs ls -> story mode f l ->
    (forall o, answer (map Register (decoders_of mode)) f <> Ok (Some o)) -> told (fs ++ [f]) (ls ++ l)
| told_object fs ls f l o pl : told fs ls -> story mode f l ->
    answer (map Register (decoders_of mode)) f = Ok (Some o) -> printed (objects mode fs) o pl -> told (fs ++ [f]) (ls ++ l ++ pl).
End Printed.

(** ** Progress: the share of bytes processed, the messages and the errors. *)
Definition progress (size done : Z) (st : statistics) (t : text) : Prop :=
  exists pct, t = pct ++ ustr "%, " ++ number (decoding_attempts st) ++ ustr " messages, prs-dec-prnt errors " ++
      number (parsing_errors st) ++ ustr "-" ++ number (decoding_errors st) ++ ustr "-" ++ number (printing_errors st) ++ ustr "." /\
    let x := f_mul (f_div (f_of_int done) (f_of_int size)) (f_of_int 100) in
    (is_finite_SF x = true -> shows 0 2 x pct).

(** ** The log of a conversion: a greeting; after every read the lines about the messages it
    completed and a progress line; a farewell. *)
Definition greeting (fpath : text) : line := (LInfo, ustr "Opened file " ++ fpath ++ ustr ".").
Definition farewell (fpath : text) (opened : bool) : line :=
  (LInfo, if opened then ustr "Closing file " ++ fpath ++ ustr "." else ustr "Source file " ++ fpath ++ ustr " wasn't opened.").
Definition written (parts : list (list line * text)) : list line := flat_map (fun x => fst x ++ [(LCritical, snd x)]) parts.
(** The lines about an exception that ends the processing. *)
Definition excuse (exn_text : exn -> text) (missing : bool) (e : exn) : list line :=
  match e with
  | EKeyboard => [(LError, ustr "Processing terminated by the user.")]
  | EOS => [(LError, if missing then ustr "Got FileNotFoundError exception." else ustr "Got unexpected exception."); (LError, exn_text e)]
  | _ => [(LError, ustr "Got unexpected exception."); (LError, exn_text e)]
  end.

(** ** Counting lines: those of a level whose text begins in a given way. *)
Fixpoint begins (p t : text) : bool :=
  match p, t with
  | [], _ => true
  | a :: p, b :: t => (a =? b) && begins p t
  | _, [] => false
  end.
Definition level_eqb (a b : level) : bool :=
  match a, b with
  | LDebug, LDebug | LInfo, LInfo | LWarning, LWarning | LError, LError | LCritical, LCritical => true
  | _, _ => false
  end.
Definition such (lv : level) (p : string) (ls : list line) : Z :=
  zlen (filter (fun x => level_eqb (fst x) lv && begins (ustr p) (snd x)) ls).

(** ** Missing measurements of an MSM message *)
Definition coarse (what : string) (g : gnss) (sat k : Z) : line :=
  (LWarning, ustr ("No coarse " ++ what ++ ":gnss=" ++ gnss_letter g ++ ",(sat=") ++ number sat ++ ustr ",sgn_idx=" ++ number k ++ ustr ")").
Definition fine (what : string) (g : gnss) (sat : Z) (code : string) : line :=
  (LInfo, ustr ("No fine " ++ what ++ ":gnss=" ++ gnss_letter g ++ ",(sat=") ++ number sat ++ ustr (",sgn='" ++ code ++ "')")).

(** Of a cell, the measurements of the message type that are marked as not available, although
    the satellite's coarse values are. *)
Definition cell_remarks (g : gnss) (t : msm_type) (s : sat_data) (before : list (option cell_data)) (code : string) (c : cell_data)
  : list line :=
  match rough_ms t s with
  | None => []
  | Some _ =>
      (if has_range t && range_invalid t c then [fine "range" g (sd_id s) code] else []) ++
      (if has_phase t && negb (blocked t before c) && phase_invalid t c then [fine "phase" g (sd_id s) code] else [])
  end ++
  (if has_rate t && negb (marks_invalid 14 (sd_rate s)) && marks_invalid 15 (cd_rate c) then [fine "doppler" g (sd_id s) code] else []).
Fixpoint cells_remarks (g : gnss) (t : msm_type) (s : sat_data) (before row : list (option cell_data)) (codes : list string) : list line :=
  match row, codes with
  | o :: r, code :: cs =>
      match o with Some c => cell_remarks g t s before code c | None => [] end ++ cells_remarks g t s (before ++ [o]) r cs
  | _, _ => []
  end.
(** Of a satellite; [k] cells belong to the satellites before it. *)
Definition sat_remarks (g : gnss) (t : msm_type) (codes : list string) (k : Z) (s : sat_data) (row : list (option cell_data)) : list line :=
  (match rough_ms t s with None => [coarse "range" g (sd_id s) k] | Some _ => [] end) ++
  (if has_rate t && marks_invalid 14 (sd_rate s) then [coarse "doppler" g (sd_id s) k] else []) ++
  cells_remarks g t s [] row codes.
Fixpoint rows_remarks (g : gnss) (t : msm_type) (codes : list string) (k : Z) (rows : list (sat_data * list (option cell_data))) : list line :=
  match rows with
  | [] => []
  | (s, row) :: r => sat_remarks g t codes k s row ++ rows_remarks g t codes (k + zlen (row_cells row)) r
  end.
Definition msm_remarks (m : msm) (codes : list string) : list line :=
  rows_remarks (m_gnss m) (m_type m) codes 0 (m_rows m).
