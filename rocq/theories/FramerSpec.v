(** * FramerSpec: reference segmentation of a byte stream into RTCM3 frames.
    Purely declarative: no loop, buffer or flag of the implementation appears. *)
From Verif Require Import PyBase BitsSpec CrcSpec.

(** Shape of a frame: preamble 0xD3, six zero bits, ten length bits, payload, 3 CRC bytes. *)
Definition frame_shape (f : list Z) : Prop :=
  exists h1 h2 body, f = 0xD3 :: h1 :: h2 :: body /\
    0 <= h1 < 4 /\ 0 <= h2 < 256 /\ zlen body = 256 * h1 + h2 + 3.

(** A complete frame with a correct CRC. *)
Definition valid_frame (f : list Z) : Prop :=
  exists h1 h2 payload c1 c2 c3,
    f = 0xD3 :: h1 :: h2 :: payload ++ [c1; c2; c3] /\
    0 <= h1 < 4 /\ 0 <= h2 < 256 /\ zlen payload = 256 * h1 + h2 /\
    bytes_ok payload /\ byte_ok c1 /\ byte_ok c2 /\ byte_ok c3 /\
    is_crc24q (0xD3 :: h1 :: h2 :: payload) (65536 * c1 + 256 * c2 + c3).

(** [s] is a proper beginning of something shaped like a frame: more input is needed. *)
Definition pending (s : list Z) : Prop := s <> [] /\ exists e, e <> [] /\ frame_shape (s ++ e).

(** Some valid frame starts [s]. *)
Definition starts_valid (s : list Z) : Prop := exists f t, s = f ++ t /\ valid_frame f.

Inductive segment : Type :=
| Junk (b : Z)              (* one discarded byte *)
| Frame (f : list Z).       (* one accepted message *)

(** [scans s segs rest]: reading [s] left to right, taking a valid frame whenever one
    starts at the current byte, dropping the byte when none starts there and none can
    start there whatever follows, and stopping when the remainder is undecided. *)
Inductive scans : list Z -> list segment -> list Z -> Prop :=
| scans_end : scans [] [] []
| scans_wait s : pending s -> scans s [] s
| scans_frame f s segs rest :
    valid_frame f -> scans s segs rest -> scans (f ++ s) (Frame f :: segs) rest
| scans_junk b s segs rest :
    ~ pending (b :: s) -> ~ starts_valid (b :: s) -> scans s segs rest ->
    scans (b :: s) (Junk b :: segs) rest.

Definition frames_of (segs : list segment) : list (list Z) :=
  flat_map (fun x => match x with Frame f => [f] | Junk _ => [] end) segs.

Definition seg_bytes (segs : list segment) : list Z :=
  flat_map (fun x => match x with Frame f => f | Junk b => [b] end) segs.

(** Number of accepted messages, other than the first, that were separated from the
    previous accepted message by at least one discarded byte. *)
Fixpoint gaps_since_frame (junk : bool) (segs : list segment) : Z :=
  match segs with
  | [] => 0
  | Junk _ :: r => gaps_since_frame true r
  | Frame _ :: r => (if junk then 1 else 0) + gaps_since_frame false r
  end.
Fixpoint interrupted_messages (segs : list segment) : Z :=
  match segs with
  | [] => 0
  | Junk _ :: r => interrupted_messages r
  | Frame _ :: r => gaps_since_frame false r
  end.

(** [ms] occur in [s] as consecutive, disjoint substrings, in order. *)
Inductive embedded : list (list Z) -> list Z -> Prop :=
| embedded_nil s : embedded [] s
| embedded_cons g m ms s : embedded ms s -> embedded (m :: ms) (g ++ m ++ s).

(** A stream made of frames with a gap before each frame and one at the end. *)
Definition padded_stream (gfs : list (list Z * list Z)) (last_gap : list Z) : list Z :=
  concat (map (fun gf => fst gf ++ snd gf) gfs) ++ last_gap.

Definition no_preamble (g : list Z) : Prop := bytes_ok g /\ ~ In 0xD3 g.

(** Number of non-empty gaps strictly between two frames. *)
Definition inner_gaps (gfs : list (list Z * list Z)) : Z :=
  zlen (filter (fun gf => match fst gf with [] => false | _ => true end) (tl gfs)).
