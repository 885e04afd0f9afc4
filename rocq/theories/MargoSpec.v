(** * MargoSpec: what MARGO (.obs) files must contain. *)
From Coq Require Import Ascii Reals.
From Flocq Require Import BinarySingleNaN.
From Verif Require Import PyBase PyDict PyFloat MsmModel MsmSpec MsmScaleSpec MsmScaleTheorems MargoModel FormatSpec.
Local Open Scope string_scope.
Local Open Scope list_scope.
Local Open Scope Z_scope.

(** ** Tables of the format *)
Inductive param := CodeRange | Phase | Doppler | CNR | LockTime | HalfCycle.

Definition param_letter (p : param) : string :=
  match p with CodeRange => "C" | Phase => "L" | Doppler => "D" | CNR => "S" | LockTime => "T"
             | HalfCycle => "A" end.
Definition param_id (p : param) : Z :=
  match p with CodeRange => 0 | Phase => 1 | Doppler => 2 | CNR => 3 | LockTime => 4 | HalfCycle => 5 end.
(** Width of a column and number of decimals. *)
Definition param_width (p : param) : Z := match p with LockTime => 10 | HalfCycle => 4 | _ => 15 end.
Definition param_decimals (p : param) : Z :=
  match p with CodeRange => 3 | Phase => 4 | Doppler => 3 | CNR => 2 | LockTime => 3 | HalfCycle => 0 end.
(** Number of satellite slots. *)
Definition slots (g : gnss) : Z :=
  match g with GPS => 32 | GLO => 24 | GAL => 36 | SBAS => 38 | QZSS => 5 | BDS => 37 | NAVIC => 14 end.
Definition gnss_dir (g : gnss) : string :=
  match g with GPS => "GPS" | GLO => "GLN" | GAL => "GAL" | SBAS => "SBS" | QZSS => "QZS"
             | BDS => "BDS" | NAVIC => "NAVIC" end.

Definition obs_file (g : gnss) (p : param) (sgn : string) (t : msm_type) : string :=
  (gnss_letter g ++ param_letter p ++ sgn ++ "_" ++ type_name t ++ ".obs")%string.
Definition obs_path (g : gnss) (p : param) (sgn : string) (t : msm_type) : string :=
  (gnss_dir g ++ "/" ++ obs_file g p sgn t)%string.

(** ** Time of a row: GPS time of week in ms *)
Definition week_ms : Z := 7 * 24 * 3600 * 1000.
Definition gps_time (shift : Z) (g : gnss) (time day : Z) : Z :=
  match g with
  | GLO => (day * (24 * 3600 * 1000) + time - 3 * 3600 * 1000 + shift * 1000) mod week_ms
  | BDS => (time + 14 * 1000) mod week_ms
  | _ => time
  end.
(** The printed time for arbitrary header times: one week is added or subtracted where
    necessary.  C30 shows that it is [gps_time] for the times the standard allows. *)
Definition row_time (ctl : margo_controls) (g : gnss) (o : observables) : Z :=
  let time := d_time (ob_hdr o) in
  match g with
  | GLO => let x := d_day (ob_hdr o) * 86400000 + time - 10800000 + gps_utc_shift ctl * 1000 in
           if x <? 0 then x + week_ms else x
  | BDS => let x := time + 14000 in if week_ms <=? x then x - week_ms else x
  | _ => time
  end.
(** Times the standard allows: time of week below a week; GLONASS day of week 0..6, time of day
    up to a leap second beyond the day. *)
Definition time_ok (g : gnss) (time day : Z) : Prop :=
  match g with
  | GLO => 0 <= time <= 86401000 /\ 0 <= day <= 6
  | _ => 0 <= time < week_ms
  end.

(** ** Values of the columns *)
(** Carrier of satellite [sat] in MHz: GLONASS frequency channels are 9/16 MHz (band 1) and
    7/16 MHz (band 2) apart. *)
Definition glo_channel (ctl : margo_controls) (sat : Z) : Z :=
  match zget (glo_lit_tab ctl) sat with Some k => k | None => 0 end.
Definition sat_carrier (ctl : margo_controls) (g : gnss) (sgn : string) (sat : Z) : flt :=
  match g with
  | GLO => f_add (carrier g sgn)
             (f_mul (match sgn with String "1" _ => dec_lit 5625 4 | _ => dec_lit 4375 4 end)
                (f_of_int (glo_channel ctl sat)))
  | _ => carrier g sgn
  end.
(** Wave length in metres: (299792.458 * 0.001) / MHz. *)
Definition wave (ctl : margo_controls) (g : gnss) (sgn : string) (sat : Z) : flt :=
  f_div (f_mul (dec_lit 299792458 3) (dec_lit 1 3)) (sat_carrier ctl g sgn sat).

(** The half-cycle ambiguity of a phase is unresolved, or not known to be resolved although the
    signal carries indicators. *)
Definition ambiguous (o : obs) (sgn : string) (sat : Z) : bool :=
  match sget (o_hca o) sgn with
  | None => false
  | Some h => match zget h sat with Some false => false | _ => true end
  end.

(** The measurement of one satellite, in the units of the file; None is "not available". *)
Definition cell_of (ctl : margo_controls) (g : gnss) (o : obs) (p : param) (sgn : string) (sat : Z)
  : option flt :=
  match p with
  | CodeRange => lookup (o_rng o) sgn sat
  | CNR => lookup (o_c2n o) sgn sat
  | Phase =>
      if negb (half_cycle_enable ctl) && ambiguous o sgn sat then None
      else option_map (fun v => f_div v (wave ctl g sgn sat)) (lookup (o_phs o) sgn sat)
  | Doppler => option_map (fun v => f_div (f_neg v) (wave ctl g sgn sat)) (lookup (o_dpl o) sgn sat)
  | LockTime => option_map (fun v => f_mul (f_of_int v) (dec_lit 1 3)) (lookup (o_ltm o) sgn sat)
  | HalfCycle => option_map (fun b : bool => f_of_int (if b then 1 else 0)) (lookup (o_hca o) sgn sat)
  end.

(** The message has measurements of this parameter for this signal, and they are to be printed. *)
Definition contributes (ctl : margo_controls) (o : obs) (p : param) (sgn : string) : bool :=
  let has {V} (d : obs_dict V) := match sget d sgn with Some _ => true | None => false end in
  match p with
  | CodeRange => has (o_rng o) | Phase => has (o_phs o) | Doppler => has (o_dpl o)
  | CNR => has (o_c2n o) | LockTime => lock_time_enable ctl && has (o_ltm o)
  | HalfCycle => half_cycle_enable ctl && has (o_hca o)
  end.

Definition columns (ctl : margo_controls) (g : gnss) (o : obs) (p : param) (sgn : string)
  : list (option flt) :=
  map (fun k => cell_of ctl g o p sgn (Z.of_nat k)) (seq 1 (Z.to_nat (slots g))).

(** ** Texts *)
Definition field (f : list Z) : Prop := Forall plain f.

Definition shows_cell (width frc : Z) (c : option flt) (f : list Z) : Prop :=
  match c with
  | None => padded width [110; 97; 110] f                     (* nan *)
  | Some x => if is_finite_SF x then shows width frc x f else True
  end.

(** A row: the time in 10 columns, then one field per satellite slot. *)
Definition is_row (p : param) (time : Z) (cells : list (option flt)) (line : list Z) : Prop :=
  exists ft fs, line = csv (ft :: fs) /\ Forall field (ft :: fs) /\ shows_int 10 time ft /\
    Forall2 (shows_cell (param_width p) (param_decimals p)) cells fs.

(** First header line: the parameter id, then the satellite numbers. *)
Definition is_header1 (g : gnss) (p : param) (line : list Z) : Prop :=
  exists ft fs, line = csv (ft :: fs) /\ Forall field (ft :: fs) /\ shows_int 10 (param_id p) ft /\
    Forall2 (fun k f => shows_int (param_width p) (Z.of_nat k) f) (seq 1 (Z.to_nat (slots g))) fs.

(** Second header line: the nominal carrier, then the carrier of every satellite, in MHz with at
    least 4 decimals. *)
Definition is_header2 (ctl : margo_controls) (g : gnss) (p : param) (sgn : string) (line : list Z) : Prop :=
  exists ft fs, line = csv (ft :: fs) /\ Forall field (ft :: fs) /\ shows 10 4 (carrier g sgn) ft /\
    Forall2 (fun k f => shows (Z.max 9 (param_width p)) 4 (sat_carrier ctl g sgn (Z.of_nat k)) f)
      (seq 1 (Z.to_nat (slots g))) fs.

(** ** Messages and controls *)
(** Controls with a (reasonable) frequency channel for every GLONASS satellite. *)
Definition controls_ok (ctl : margo_controls) : Prop :=
  forall sat, 1 <= sat <= 24 -> exists k, zget (glo_lit_tab ctl) sat = Some k /\ -1000 <= k <= 1000.

(** Signals of the dictionary are signals of the system, each one once. *)
Definition dict_ok {V} (g : gnss) (d : obs_dict V) : Prop :=
  NoDup (map fst d) /\ forall sgn, In sgn (map fst d) -> In sgn (map snd (signal_codes g)).
(** Every message of system [g] and type [t] the decoder returns is like this
    (C31_decoded_printable). *)
Definition printable (g : gnss) (t : msm_type) (o : observables) : Prop :=
  a_gnss (ob_atr o) = gnss_letter g /\ a_subset (ob_atr o) = type_name t /\
  dict_ok g (o_rng (ob_obs o)) /\ dict_ok g (o_phs (ob_obs o)) /\ dict_ok g (o_ltm (ob_obs o)) /\
  dict_ok g (o_hca (ob_obs o)) /\ dict_ok g (o_dpl (ob_obs o)) /\ dict_ok g (o_c2n (ob_obs o)) /\
  (forall sgn sat v, lookup (o_ltm (ob_obs o)) sgn sat = Some v -> Z.abs v < 2 ^ 53).

(** ** Histories: messages printed one after the other; with every message goes the set of
    files that the operating system would let the printer create at that moment. *)
Record print_event := { pe_gnss : gnss; pe_type : msm_type; pe_obs : observables;
                        pe_can_create : string -> bool }.
Definition event_ok (e : print_event) : Prop := printable (pe_gnss e) (pe_type e) (pe_obs e).

Fixpoint drop_until {A} (f : A -> bool) (l : list A) : list A :=
  match l with [] => [] | x :: r => if f x then l else drop_until f r end.

Definition gnss_eq_dec : forall a b : gnss, {a = b} + {a <> b}.
Proof. decide equality. Defined.
Definition type_eq_dec : forall a b : msm_type, {a = b} + {a <> b}.
Proof. decide equality. Defined.

Section File.
Context (ctl : margo_controls) (g : gnss) (p : param) (sgn : string) (t : msm_type).
(** The events whose message has a row for this file. *)
Definition goes_here (e : print_event) : bool :=
  (if gnss_eq_dec (pe_gnss e) g then true else false) &&
  (if type_eq_dec (pe_type e) t then true else false) && contributes ctl (ob_obs (pe_obs e)) p sgn.
(** ... from the first one at which the file could be created. *)
Definition recorded (hist : list print_event) : list print_event :=
  drop_until (fun e => pe_can_create e (obs_file g p sgn t)) (filter goes_here hist).
(** The file holds the two header lines and one row per recorded event, in order. *)
Definition file_of (hist : list print_event) (content : list Z) : Prop :=
  exists h1 h2 rows, content = h1 ++ h2 ++ concat rows /\
    is_header1 g p h1 /\ is_header2 ctl g p sgn h2 /\
    Forall2 (fun e row => is_row p (row_time ctl g (pe_obs e))
                            (columns ctl g (ob_obs (pe_obs e)) p sgn) row)
      (recorded hist) rows.
End File.

(** Printing a history, stopping at the first exception. *)
Fixpoint print_all (ctl : margo_controls) (st : margo) (hist : list print_event) : margo * res unit :=
  match hist with
  | [] => (st, Ok tt)
  | e :: r =>
      match margo_print ctl (pe_can_create e) st (DecoderModel.OMsm (MsmScaled (pe_obs e))) with
      | (st, Ok _) => print_all ctl st r
      | (st, Err x) => (st, Err x)
      end
  end.
