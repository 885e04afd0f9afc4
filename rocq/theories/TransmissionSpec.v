(** * TransmissionSpec: what transmitted MSM messages say, in the units of the observation files
    (C67).  Values are exact real numbers; only data of the messages are used. *)
From Coq Require Import Reals Ascii.
From Verif Require Import PyBase PyDict PyFloat BitsSpec MessageSpec DecoderSpec MsmModel MsmSpec MsmScaleSpec MargoModel FormatSpec MargoSpec.
Local Open Scope string_scope.
Local Open Scope list_scope.
Local Open Scope Z_scope.

(** ** One cell of a message *)

(** The rough range is known: MSM1-3 transmit only its part below a millisecond; 255 marks an
    unknown number of milliseconds. *)
Definition rough_known (t : msm_type) (s : sat_data) : bool :=
  match t with MSM1 | MSM2 | MSM3 => true | _ => negb (sd_ms s =? 255) end.
(** Rough range in milliseconds. *)
Definition rough_value (t : msm_type) (s : sat_data) : R :=
  (match t with MSM1 | MSM2 | MSM3 => 0 | _ => IZR (sd_ms s) end + IZR (sd_rough s) / 1024)%R.
(** The speed of light in metres per second. *)
Definition light : R := 299792458%R.
(** Milliseconds to metres. *)
Definition to_metres (ms : R) : R := (ms * (light / 1000))%R.

(** The carrier of a satellite in Hz: GLONASS channels are 562.5 kHz and 437.5 kHz apart. *)
Definition band_hz (g : gnss) (sgn : string) : Z :=
  match sgn with
  | String band _ => fst (band_mhz g band) * 10 ^ (6 - snd (band_mhz g band))
  | EmptyString => 0
  end.
Definition hertz (ctl : margo_controls) (g : gnss) (sgn : string) (sat : Z) : Z :=
  match g with
  | GLO => band_hz g sgn + glo_channel ctl sat * match sgn with String "1" _ => 562500 | _ => 437500 end
  | _ => band_hz g sgn
  end.

(** What the cell [c] of satellite [s] says about a parameter: metres, cycles, hertz, dB-Hz,
    seconds, or 0/1; None if it says nothing.  [before] are the cells of the same satellite that
    precede it (see C18: they matter for the phases of MSM3). *)
Definition measurement (ctl : margo_controls) (g : gnss) (t : msm_type) (p : param) (sgn : string)
    (before : list (option cell_data)) (s : sat_data) (c : cell_data) : option R :=
  let per_metre := (IZR (hertz ctl g sgn (sd_id s)) / light)%R in
  let phase_sent := has_phase t && rough_known t s && negb (phase_invalid t c) && negb (blocked t before c) in
  match p with
  | CodeRange =>
      if has_range t && rough_known t s && negb (range_invalid t c)
      then Some (to_metres (rough_value t s + IZR (cd_rng c) / 2 ^ (if extended t then 29 else 24)))%R else None
  | Phase =>
      if phase_sent
      then Some (to_metres (rough_value t s + IZR (cd_phs c) / 2 ^ (if extended t then 31 else 29)) * per_metre)%R else None
  | Doppler =>
      if has_rate t && negb (marks_invalid 14 (sd_rate s)) && negb (marks_invalid 15 (cd_rate c))
      then Some (- (IZR (sd_rate s) + IZR (cd_rate c) / 10000) * per_metre)%R else None
  | CNR => if has_cnr t then Some (IZR (cd_cnr c) / (if extended t then 16 else 1))%R else None
  | LockTime => if has_cnr t || phase_sent then Some (IZR (lock_ms t (cd_lock c)) / 1000)%R else None
  | HalfCycle => if has_cnr t || phase_sent then Some (if cd_half c =? 0 then 0 else 1)%R else None
  end.

(** ** A message *)

Definition is_code (g : gnss) (k : Z) (sgn : string) : bool :=
  match signal_code g k with Some c => String.eqb c sgn | None => false end.
(** The cell of a signal in the row of a satellite, and the cells before it. *)
Fixpoint cell_in (g : gnss) (sgn : string) (before : list (option cell_data)) (sigs : list Z) (row : list (option cell_data))
  : option (list (option cell_data) * cell_data) :=
  match sigs, row with
  | k :: sigs, oc :: row =>
      if is_code g k sgn then option_map (pair before) oc else cell_in g sgn (before ++ [oc]) sigs row
  | _, _ => None
  end.
Definition cell (m : msm) (sgn : string) (sat : Z) : option (list (option cell_data) * sat_data * cell_data) :=
  match find (fun r => sd_id (fst r) =? sat) (m_rows m) with
  | Some (s, row) => option_map (fun x => (fst x, s, snd x)) (cell_in (m_gnss m) sgn [] (m_sigs m) row)
  | None => None
  end.

Section Controls.
Context (ctl : margo_controls).

(** What the message says about a parameter of a signal of a satellite. *)
Definition reading (m : msm) (p : param) (sgn : string) (sat : Z) : option R :=
  match cell m sgn sat with
  | Some (before, s, c) => measurement ctl (m_gnss m) (m_type m) p sgn before s c
  | None => None
  end.
(** Phases with an unresolved half cycle are left out unless half cycles are printed as well. *)
Definition resolved (m : msm) (sgn : string) (sat : Z) : bool :=
  match cell m sgn sat with Some (_, _, c) => cd_half c =? 0 | None => true end.
Definition column_value (m : msm) (p : param) (sgn : string) (sat : Z) : option R :=
  match p with
  | Phase => if half_cycle_enable ctl || resolved m sgn sat then reading m p sgn sat else None
  | _ => reading m p sgn sat
  end.

Definition wanted (p : param) : bool :=
  match p with LockTime => lock_time_enable ctl | HalfCycle => half_cycle_enable ctl | _ => true end.
(** The message has a row in the file of this system, parameter, signal and type. *)
Definition has_row (g : gnss) (p : param) (sgn : string) (t : msm_type) (m : msm) : bool :=
  (if gnss_eq_dec (m_gnss m) g then true else false) && (if type_eq_dec (m_type m) t then true else false) && wanted p &&
  existsb (fun s => match reading m p sgn (sd_id s) with Some _ => true | None => false end) (m_sats m).

(** ** Texts *)

(** The field shows the value: a decimal numeral, right-aligned, wrong by at most half a unit of
    its last digit and two millionths; or the word nan. *)
Definition shows_value (width frc : Z) (x : option R) (f : list Z) : Prop :=
  match x with
  | None => padded width [110; 97; 110] f
  | Some x => exists t n, padded width t f /\ decimal_text frc t n /\
                (Rabs (IZR n / IZR (10 ^ frc) - x) <= / 2 / IZR (10 ^ frc) + 2 / 1000000)%R
  end.

(** A line shows a message: its GPS time of week (if the message has a time the standard allows),
    then one field per satellite slot. *)
Definition shows_message (p : param) (sgn : string) (m : msm) (line : list Z) : Prop :=
  exists ft fs, line = csv (ft :: fs) /\ Forall field (ft :: fs) /\
    (time_ok (m_gnss m) (epoch_time m) (epoch_day m) ->
     shows_int 10 (gps_time (gps_utc_shift ctl) (m_gnss m) (epoch_time m) (epoch_day m)) ft) /\
    Forall2 (fun k f => shows_value (param_width p) (param_decimals p) (column_value m p sgn (Z.of_nat k)) f)
      (seq 1 (Z.to_nat (slots (m_gnss m)))) fs.

(** Second header line: the carriers in MHz, first the nominal one. *)
Definition shows_carriers (g : gnss) (p : param) (sgn : string) (line : list Z) : Prop :=
  exists ft fs, line = csv (ft :: fs) /\ Forall field (ft :: fs) /\
    shows_value 10 4 (Some (IZR (band_hz g sgn) / 1000000)%R) ft /\
    Forall2 (fun k f => shows_value (Z.max 9 (param_width p)) 4 (Some (IZR (hertz ctl g sgn (Z.of_nat k)) / 1000000)%R) f)
      (seq 1 (Z.to_nat (slots g))) fs.

(** The text of the observation file for the messages [msgs]. *)
Definition observation_file (g : gnss) (p : param) (sgn : string) (t : msm_type) (msgs : list msm) (text : list Z) : Prop :=
  exists h1 h2 rows, text = h1 ++ h2 ++ concat rows /\ is_header1 g p h1 /\ shows_carriers g p sgn h2 /\
    Forall2 (shows_message p sgn) (filter (has_row g p sgn t) msgs) rows.
End Controls.

(** ** Streams *)

(** A message the program can read: as the standard wants it, with known signals and at least one
    cell and, for MSM2 and MSM3, of a length the program accepts (see C13). *)
Definition readable (m : msm) : Prop :=
  msm_ok m /\ msm_nonempty m /\ passes_length_check m /\
  (forall k, In k (m_sigs m) -> signal_code (m_gnss m) k <> None).

(** A frame brings the message [m], or no observations. *)
Inductive arrives : list Z -> option msm -> Prop :=
| arrives_msm f m : readable m -> carries f (msm_bits m) -> arrives f (Some m)
| arrives_other f : (forall m, readable m -> ~ carries f (msm_bits m)) -> arrives f None.

Definition sent (l : list (option msm)) : list msm :=
  flat_map (fun o => match o with Some m => [m] | None => [] end) l.
