(** * DecoderSpec: vocabulary for the dispatching of messages to sub-decoders (C12). *)
From Verif Require Import PyBase PyDict BitsSpec DecoderModel.
Local Open Scope string_scope.
Local Open Scope list_scope.
Local Open Scope Z_scope.

(** What a user of the decoder does, in time order. *)
Inductive event := Register (io : subdec) | Decode (msg : list Z).

(** A sub-decoder the decoder is willing to take: it has a [decode] of its own and handles at
    least one message. *)
Definition acceptable (io : subdec) : Prop := sd_decode io <> None /\ sd_actual io <> [].

(** [io] is in force after the history [h]: it has been offered, it was acceptable, and no
    acceptable sub-decoder of the same subset has been offered since. *)
Definition in_force (h : list event) (io : subdec) : Prop :=
  exists before after,
    h = before ++ Register io :: after /\ acceptable io /\
    forall io', In (Register io') after -> acceptable io' -> sd_subset io' <> sd_subset io.

(** The number of a message: the twelve bits that follow the three bytes of the header. *)
Definition has_number (msg : list Z) (n : Z) : Prop :=
  (36 <= length (bits_of msg))%nat /\ n = uval (firstn 12 (skipn 24 (bits_of msg))).

(** [io] claims messages with number [n], with class [cls] announced for the result. *)
Definition claims (io : subdec) (n : Z) (cls : string) : Prop :=
  zget (sd_spec io) n = Some cls /\ In n (sd_actual io).

(** Some sub-decoder in force claims the message. *)
Definition served (h : list event) (msg : list Z) : Prop :=
  exists io n cls, in_force h io /\ has_number msg n /\ claims io n cls.

(** The class announced for a message number by the documentation, for the standard set of
    sub-decoders; [bare] chooses unscaled output. *)
Definition is_msm (n : Z) : bool := (1071 <=? n) && (n <=? 1137) && (1 <=? n mod 10) && (n mod 10 <=? 7).
Definition announced (bare : bool) (n : Z) : option string :=
  if is_msm n then
    Some (if bare then (if n mod 10 <=? 3 then "BareObservablesMSM123" else "BareObservablesMSM4567")
          else "ObservablesMSM")
  else if n =? 1019 then Some "EphGPS"
  else if n =? 1020 then Some "EphGLO"
  else if n =? 1041 then Some "EphNAVIC"
  else if n =? 1042 then Some "EphBDS"
  else if n =? 1044 then Some "EphQZS"
  else if n =? 1045 then Some "EphGALF"
  else if n =? 1046 then Some "EphGALI"
  else if n =? 1005 then Some "BaseRP"
  else if n =? 1006 then Some "BaseRPH"
  else if n =? 1007 then Some "BaseAD"
  else if n =? 1008 then Some "BaseADSN"
  else if n =? 1033 then Some "BaseADSNRC"
  else if n =? 1013 then Some "BaseSP"
  else if n =? 1029 then Some "BaseTS"
  else if n =? 1230 then Some "BaseGLBS"
  else None.

(** ** Running a history on the model *)

Definition after_event (st : decoder) (e : event) : decoder :=
  match e with
  | Register io => fst (register_decoder st io)
  | Decode msg => snd (decode st msg)
  end.
Definition after (h : list event) : decoder := fold_left after_event h decoder_init.

(** What the last [decode] call of the history [h ++ [Decode msg]] returns. *)
Definition answer (h : list event) (msg : list Z) : res (option rtcm_obj) := fst (decode (after h) msg).
