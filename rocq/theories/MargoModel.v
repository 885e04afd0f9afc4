(** * MargoModel: printers/margo_printer.py. *)
From Coq Require Import Ascii.
From Verif Require Import PyBase PyDict PyFloat TablesModel MsmModel PyVal DecoderModel PyFormat.
Local Open Scope string_scope.
Local Open Scope list_scope.
Local Open Scope Z_scope.

(** printers/margo_printer.py:24-63 [MargoControls] *)
Record margo_controls := {
  half_cycle_enable : bool; lock_time_enable : bool; gps_utc_shift : Z; glo_lit_tab : list (Z * Z) }.
Definition default_margo : margo_controls :=
  {| half_cycle_enable := false; lock_time_enable := false; gps_utc_shift := 18;
     glo_lit_tab :=
       [(1, 1); (2, -4); (3, 5); (4, 6); (5, 1); (6, -4); (7, 5); (8, 6); (9, -2); (10, -7);
        (11, 0); (12, -1); (13, -2); (14, -7); (15, 0); (16, -1); (17, 4); (18, -3); (19, 3);
        (20, 2); (21, 4); (22, -3); (23, 3); (24, 2)] |}.

(** printers/margo_printer.py:95-103 [__OFILE_LT1] *)
Definition OFILE_LT1 : list (string * string) :=
  [("G", "GPS"); ("R", "GLN"); ("E", "GAL"); ("S", "SBS"); ("Q", "QZS"); ("B", "BDS");
   ("I", "NAVIC")].

(** [rv = table.get(k); assert rv is not None] as in printers/margo_printer.py:105-110,
    133-140, 142-149, 151-156. *)
Definition get_or_assert {V} (t : list (string * V)) (k : string) : res V :=
  match sget t k with Some v => Ok v | None => Err EAssert end.

(** printers/margo_printer.py:105-110 [DIRNAME] *)
Definition DIRNAME (gnss : string) : res string := get_or_assert OFILE_LT1 gnss.

(** printers/margo_printer.py:112-115 [GNSSTUPLE], used as [gnss in ...]. *)
Definition gnss_supported (gnss : string) : bool :=
  match sget OFILE_LT1 gnss with Some _ => true | None => false end.

(** printers/margo_printer.py:118-125, 133-140 [__FORMAT_COLUMNS], [FORMAT] *)
Definition FORMAT (param : string) : res (Z * Z) :=
  get_or_assert [("C", (15, 3)); ("L", (15, 4)); ("D", (15, 3)); ("S", (15, 2)); ("T", (10, 3));
                 ("A", (4, 0))] param.

(** printers/margo_printer.py:128, 142-149 [__MARGO_FILE_ID], [MARGO_FILE_ID] *)
Definition MARGO_FILE_ID (param : string) : res Z :=
  get_or_assert [("C", 0); ("L", 1); ("D", 2); ("S", 3); ("T", 4); ("A", 5)] param.

(** printers/margo_printer.py:131, 151-156 [__MAX_SATS], [MAX_SATS] *)
Definition MAX_SATS (gnss : string) : res Z :=
  get_or_assert [("G", 32); ("R", 24); ("E", 36); ("S", 38); ("Q", 5); ("B", 37); ("I", 14)] gnss.

Definition slen (s : string) : Z := Z.of_nat (String.length s).

(** printers/margo_printer.py:158-174 [make_obs_file_name] *)
Definition make_obs_file_name (gnss param sgn postf : string) : string :=
  if negb (gnss_supported gnss) then ""
  else if negb (slen sgn =? 2) || negb (slen param =? 1) then ""
  else let postf := if 5 <? slen postf then substring 0 5 postf else postf in
       (gnss ++ param ++ sgn ++ "_" ++ postf ++ ".obs")%string.

(** printers/margo_printer.py:176-189 [conv_to_gps_time] *)
Definition conv_to_gps_time (time day utc_shift : Z) (src_gnss : string) : Z :=
  if String.eqb src_gnss "B" then
    let rv := time + 14000 in if 604800000 <=? rv then rv - 604800000 else rv
  else if String.eqb src_gnss "R" then
    let rv := time + day * 86400000 - (10800 - utc_shift) * 1000 in
    if rv <? 0 then rv + 604800000 else rv
  else time.

(** [float(z)], also the implicit conversion in mixed arithmetic: OverflowError if too big.
    (printers/margo_printer.py: [float] and mixed arithmetic) *)
Definition py_float (z : Z) : res flt :=
  match f_of_int z with S754_infinity _ => Err EOverflow | x => Ok x end.
(** [x / y] on floats; printers/margo_printer.py: division *)
Definition py_fdiv (x y : flt) : res flt :=
  match y with S754_zero _ => Err EZeroDiv | _ => Ok (f_div x y) end.

(** printers/margo_printer.py:191-202 [make_crr_frq].  The generator is consumed at once by
    [tuple], so its exceptions surface here. *)
Definition make_crr_frq (ctl : margo_controls) (gnss sgn : string) : res (list flt) :=
  f <- crr_frq gnss (Some sgn) ;;
  n <- MAX_SATS gnss ;;
  let frq := repeat f (Z.to_nat n) in
  if negb (String.eqb gnss "R") then Ok frq
  else if negb (existsb (String.eqb sgn) ["1C"; "1P"; "2C"; "2P"]) then Ok frq
  else let df := if existsb (String.eqb sgn) ["1C"; "1P"] then dec_lit 5625 4 else dec_lit 4375 4 in
       map_res (fun '(sat, fc) => l <- zindex (glo_lit_tab ctl) sat ;; l <- py_float l ;;
                                  Ok (f_add fc (f_mul df l)))
         (combine (zrange 1 (n + 1)) frq).

(** printers/margo_printer.py:204-210 [make_lambdas] *)
Definition make_lambdas (ctl : margo_controls) (gnss sgn : string) : res (list flt) :=
  fs <- make_crr_frq ctl gnss sgn ;;
  map_res (fun f => py_fdiv (f_mul CRNG_1MS (dec_lit 1 3)) f) fs.

(** One row of a print buffer: the time and one entry per satellite slot; None is the string
    "NaN" (printers/margo_printer.py:233-234). *)
Definition margo_row : Type := Z * list (option flt).
Definition print_buffer : Type := list (string * margo_row).

(** The loop that printers/margo_printer.py:237-248, 250-283, 285-297, 299-310, 312-324 and
    326-341 repeat for each parameter: one entry per signal of [d]; [cell slot obs] is
    evaluated once per signal and yields the function computing one column. *)
Definition param_rows {V} (gnss subset param : string) (time max_sats : Z) (d : obs_dict V)
    (cell : string -> list (Z * V) -> res (Z -> res (option flt))) (rv : print_buffer)
  : res print_buffer :=
  for_each d rv (fun rv '(slot, obs) =>
    let fn := make_obs_file_name gnss param slot subset in
    if String.eqb fn "" then Ok rv
    else column <- cell slot obs ;;
         values <- map_res column (zrange 1 (max_sats + 1)) ;;
         Ok (sset rv fn (time, values))).

(** printers/margo_printer.py:243-246, 305-308: the measurement as it is. *)
Definition cell_value (slot : string) (obs : list (Z * flt)) : res (Z -> res (option flt)) :=
  Ok (fun sat => Ok (zget obs sat)).

(** printers/margo_printer.py:256-281: phase in cycles, unless the half-cycle ambiguity of
    the measurement is unresolved or unknown and not explicitly allowed. *)
Definition cell_phase (ctl : margo_controls) (gnss : string) (hca : obs_dict bool)
    (slot : string) (obs : list (Z * flt)) : res (Z -> res (option flt)) :=
  lam <- make_lambdas ctl gnss slot ;;
  Ok (fun sat =>
    match zget obs sat with
    | None => Ok None
    | Some v =>
        let amb_ok :=
          if half_cycle_enable ctl then true
          else match sget hca slot with
               | Some h => match zget h sat with Some b => negb b | None => false end
               | None => true
               end in
        if amb_ok then l <- py_index lam (sat - 1) ;; q <- py_fdiv v l ;; Ok (Some q) else Ok None
    end).

(** printers/margo_printer.py:291-295: Doppler in Hz. *)
Definition cell_doppler (ctl : margo_controls) (gnss : string)
    (slot : string) (obs : list (Z * flt)) : res (Z -> res (option flt)) :=
  lam <- make_lambdas ctl gnss slot ;;
  Ok (fun sat =>
    match zget obs sat with
    | None => Ok None
    | Some v => l <- py_index lam (sat - 1) ;; q <- py_fdiv (f_neg v) l ;; Ok (Some q)
    end).

(** printers/margo_printer.py:319-322: lock time in seconds. *)
Definition cell_lock (slot : string) (obs : list (Z * Z)) : res (Z -> res (option flt)) :=
  Ok (fun sat =>
    match zget obs sat with
    | None => Ok None
    | Some v => x <- py_float v ;; Ok (Some (f_mul x (dec_lit 1 3)))
    end).

(** printers/margo_printer.py:333-339: half-cycle ambiguity indicator. *)
Definition cell_half (slot : string) (obs : list (Z * bool)) : res (Z -> res (option flt)) :=
  Ok (fun sat =>
    match zget obs sat with
    | None => Ok None
    | Some b => Ok (Some (f_of_int (if b then 1 else 0)))
    end).

(** printers/margo_printer.py:212-343 [ObservablesMSMtoPrintBuffer] *)
Definition to_print_buffer (ctl : margo_controls) (p : observables) : res print_buffer :=
  let gnss := a_gnss (ob_atr p) in
  let subset := a_subset (ob_atr p) in
  let o := ob_obs p in
  if negb (gnss_supported gnss) then Err EAssert else
  let time := if negb (String.eqb gnss "G")
              then conv_to_gps_time (d_time (ob_hdr p)) (d_day (ob_hdr p)) (gps_utc_shift ctl) gnss
              else d_time (ob_hdr p) in
  max_sats <- MAX_SATS gnss ;;
  rv <- param_rows gnss subset "C" time max_sats (o_rng o) cell_value [] ;;
  rv <- param_rows gnss subset "L" time max_sats (o_phs o) (cell_phase ctl gnss (o_hca o)) rv ;;
  rv <- param_rows gnss subset "D" time max_sats (o_dpl o) (cell_doppler ctl gnss) rv ;;
  rv <- param_rows gnss subset "S" time max_sats (o_c2n o) cell_value rv ;;
  rv <- (if lock_time_enable ctl
         then param_rows gnss subset "T" time max_sats (o_ltm o) cell_lock rv else Ok rv) ;;
  if half_cycle_enable ctl
  then param_rows gnss subset "A" time max_sats (o_hca o) cell_half rv else Ok rv.

(** printers/margo_printer.py:345-355 [format_obs_string]; float("NaN") is a NaN. *)
Definition format_obs_string (row : margo_row) (width frc : Z) : list Z :=
  fmt_int 10 (fst row) ++ [44] ++
  py_join 44 (map (fun x => fmt_float width frc (match x with Some v => v | None => S754_nan end))
                (snd row)) ++ [10].

(** printers/margo_printer.py:357-377 [make_header].  [ofile_name[0]], [[1]] and [[2:4]] are
    substrings: the name is never empty here. *)
Definition make_header (ctl : margo_controls) (ofile_name : string) : res (list Z * list Z) :=
  let gnss := substring 0 1 ofile_name in
  let param := substring 1 1 ofile_name in
  '(width, frc) <- FORMAT param ;;
  n <- MAX_SATS gnss ;;
  id <- MARGO_FILE_ID param ;;
  let line1 := py_join 44 (map (fun sat => fmt_int width (sat + 1)) (zrange 0 n)) in
  let line1 := py_join 44 [fmt_int 10 id; line1] ++ [10] in
  let width := if width <? 9 then 9 else width in
  let frc := if frc <? 4 then 4 else frc in
  let sgn := substring 2 2 ofile_name in
  frequencies <- make_crr_frq ctl gnss sgn ;;
  cf <- crr_frq gnss (Some sgn) ;;
  let line2 := py_join 44 (map (fmt_float width frc) frequencies) in
  let line2 := py_join 44 [fmt_float 10 frc cf; line2] ++ [10] in
  Ok (line1, line2).

(** printers/margo_printer.py:380-400 [PrintMARGO]: the opened files [__ofiles] and the part of
    the file system below the working directory (relative path -> content).  Buffering is not
    modelled: what is written is in the file (the files are closed by [close]). *)
Record margo := { mg_open : list string; mg_files : list (string * list Z) }.
Definition margo_init : margo := {| mg_open := []; mg_files := [] |}.

Definition is_open (st : margo) (name : string) : bool := existsb (String.eqb name) (mg_open st).

(** printers/margo_printer.py:413, 418: path below the working directory. *)
Definition margo_path (oname : string) : res string :=
  d <- DIRNAME (substring 0 1 oname) ;; Ok (d ++ "/" ++ oname)%string.

(** [f.write(text)]; printers/margo_printer.py:410-437 *)
Definition margo_write (st : margo) (path : string) (text : list Z) : margo :=
  {| mg_open := mg_open st;
     mg_files := sset (mg_files st) path
                   (match sget (mg_files st) path with Some c => c | None => [] end ++ text) |}.

(** printers/margo_printer.py:410-424 [__create_ofile] with [open(path, "w")]; [can_create]
    says whether the operating system lets the directory and the file be created (an OSError
    otherwise).  Returns the state and whether the file is open. *)
Definition create_ofile (can_create : string -> bool) (st : margo) (oname : string)
  : margo * res bool :=
  match margo_path oname with
  | Err e => (st, Err e)
  | Ok path =>
      if can_create oname
      then ({| mg_open := oname :: mg_open st; mg_files := sset (mg_files st) path [] |}, Ok true)
      else (st, Ok false)
  end.

(** printers/margo_printer.py:426-438 [__append] *)
Definition append (ctl : margo_controls) (can_create : string -> bool) (st : margo)
    (ofile : string) (line : list Z) : margo * res bool :=
  let put (st : margo) :=
    match margo_path ofile with
    | Err e => (st, Err e)
    | Ok path => (margo_write st path line, Ok true)
    end in
  if negb (is_open st ofile) then
    match create_ofile can_create st ofile with
    | (st, Err e) => (st, Err e)
    | (st, Ok false) => (st, Ok false)
    | (st, Ok true) =>
        match make_header ctl ofile with
        | Err e => (st, Err e)
        | Ok (h1, h2) =>
            match margo_path ofile with
            | Err e => (st, Err e)
            | Ok path => put (margo_write (margo_write st path h1) path h2)
            end
        end
    end
  else put st.

(** printers/margo_printer.py:448-455: the loop over the print buffer. *)
Fixpoint append_rows (ctl : margo_controls) (can_create : string -> bool) (st : margo)
    (pbuf : print_buffer) : margo * res unit :=
  match pbuf with
  | [] => (st, Ok tt)
  | (f, row) :: r =>
      match FORMAT (substring 1 1 f) with
      | Err e => (st, Err e)
      | Ok (width, frc) =>
          match append ctl can_create st f (format_obs_string row width frc) with
          | (st, Err e) => (st, Err e)
          | (st, Ok _) => append_rows ctl can_create st r
          end
      end
  end.

(** printers/margo_printer.py:440-455 [__print_ObservablesMSM] *)
Definition print_observables (ctl : margo_controls) (can_create : string -> bool) (st : margo)
    (o : observables) : margo * res unit :=
  match to_print_buffer ctl o with
  | Err e => (st, Err e)
  | Ok pbuf => append_rows ctl can_create st pbuf
  end.

(** printers/margo_printer.py:460-470 [__print] *)
Definition margo_print (ctl : margo_controls) (can_create : string -> bool) (st : margo)
    (x : rtcm_obj) : margo * res unit :=
  match x with
  | OMsm (MsmScaled o) => print_observables ctl can_create st o
  | _ => (st, Err EAssert)
  end.

(** printers/margo_printer.py:402-408 [__close] *)
Definition margo_close (st : margo) : margo := {| mg_open := []; mg_files := mg_files st |}.
