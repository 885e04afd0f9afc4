(** * FullSpec: the log file of a source (C63). *)
From Flocq Require Import BinarySingleNaN.
From Verif Require Import PyBase PyDict PyFloat PyVal PyFormat FormatSpec FramerSpec DecoderModel DecoderSpec PropertiesDecoder PrinterModel PrinterSpec MainModel MainSpec
  ControlsModel SessionModel SessionSpec LogModel LogSpec.
Local Open Scope string_scope.
Local Open Scope list_scope.
Local Open Scope Z_scope.

(** A content cut into pieces of [n] bytes; the last piece may be shorter, no piece is empty. *)
Definition in_pieces (n : nat) (content : list Z) (pieces : list (list Z)) : Prop :=
  concat pieces = content /\
  forall i x, nth_error pieces i = Some x -> x <> [] /\ (length x <= n)%nat /\ (S i < length pieces -> length x = n)%nat.

(** The number of messages with a decoder, and how many of them could not be decoded. *)
Definition decoded_in (mode : string) (content : list Z) (attempts errors : Z) : Prop :=
  exists segs rest, scans content segs rest /\ tally (map Register (decoders_of mode) ++ map Decode (frames_of segs)) attempts errors.

(** The progress line when the bytes [seen] of a file of [size] bytes have been converted. *)
Definition progress_of (mode : string) (size : Z) (seen : list Z) (t : text) : Prop :=
  exists segs rest attempts errors pct, scans seen segs rest /\ decoded_in mode seen attempts errors /\
    t = pct ++ ustr "%, " ++ number attempts ++ ustr " messages, prs-dec-prnt errors " ++
        number (interrupted_messages segs) ++ ustr "-" ++ number errors ++ ustr "-0." /\
    let x := f_mul (f_div (f_of_int (zlen seen)) (f_of_int size)) (f_of_int 100) in
    (is_finite_SF x = true -> shows 0 2 x pct).

(** What is logged about a source that is converted without trouble from the operating system:
    greeting, and for every 4096 bytes of the content the stories of the messages that they
    complete and a progress line; farewell and verdict. *)
Definition log_messages (mode : string) (shown : text) (content : list Z) (ms : list line) : Prop :=
  exists pieces parts attempts errors,
    in_pieces 4096 content pieces /\ length parts = length pieces /\
    (forall k segs rest, scans (concat (firstn k pieces)) segs rest ->
       exists stories, Forall2 (story mode) (frames_of segs) stories /\ flat_map fst (firstn k parts) = concat stories) /\
    (forall k ls p, nth_error parts k = Some (ls, p) -> progress_of mode (zlen content) (concat (firstn (S k) pieces)) p) /\
    decoded_in mode content attempts errors /\
    ms = greeting shown :: written parts ++
          [farewell shown true; (LCritical, ustr (if errors =? 0 then "Finished without errors." else "Finished with errors."))].
(** The log file: header and these lines. *)
Definition log_text (mode : string) (shown : text) (content : list Z) (t : text) : Prop :=
  exists ms, log_messages mode shown content ms /\ t = header ++ lines ms.
