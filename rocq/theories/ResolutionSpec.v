(** * ResolutionSpec: measurements an observation file can tell apart (C77). *)
From Coq Require Import Reals String.
From Verif Require Import PyBase BitsSpec MessageSpec MsmModel MsmSpec MsmScaleSpec MargoModel MargoSpec TransmissionSpec.
Local Open Scope Z_scope.

(** The file gives the measurement exactly: all but Dopplers, and pseudoranges of high resolution
    (MSM6, MSM7), which are transmitted with finer steps than the last digit. *)
Definition kept_exactly (p : param) (t : msm_type) : bool :=
  match p with CodeRange => negb (extended t) | Doppler => false | _ => true end.

(** The same measurement; for the others, the same up to one unit of the last digit (and four
    millionths). *)
Definition same_value (p : param) (t : msm_type) (x y : option R) : Prop :=
  match x, y with
  | None, None => True
  | Some x, Some y => if kept_exactly p t then x = y else (Rabs (x - y) <= 1 / IZR (10 ^ param_decimals p) + 4 / 1000000)%R
  | _, _ => False
  end.

(** Two messages say the same about a parameter of a signal: the time, the satellites with a value, and the values. *)
Definition same_readings (ctl : margo_controls) (p : param) (sgn : string) (m m' : msm) : Prop :=
  (time_ok (m_gnss m) (epoch_time m) (epoch_day m) -> time_ok (m_gnss m') (epoch_time m') (epoch_day m') ->
   gps_time (gps_utc_shift ctl) (m_gnss m) (epoch_time m) (epoch_day m) = gps_time (gps_utc_shift ctl) (m_gnss m') (epoch_time m') (epoch_day m')) /\
  forall sat, 1 <= sat <= slots (m_gnss m) -> same_value p (m_type m) (column_value ctl m p sgn sat) (column_value ctl m' p sgn sat).
