(** * MainSpec: what a conversion is supposed to do (C38, C39, C42). *)
From Verif Require Import PyBase PyDict MsmModel DecoderModel DecoderSpec MargoModel JsonModel JsonFileSpec PrinterModel PrinterSpec
  MainModel MargoSpec.
Local Open Scope string_scope.
Local Open Scope list_scope.
Local Open Scope Z_scope.

(** The objects of a list of frames, in order, in a mode. *)
Definition objects (mode : string) (frames : list (list Z)) : list rtcm_obj :=
  flat_map (fun f => match answer (map Register (decoders_of mode)) f with Ok (Some o) => [o] | _ => [] end) frames.

Definition same_family (a b : family) : bool :=
  match a, b with ObsFiles, ObsFiles | JsonFiles, JsonFiles => true | _, _ => false end.

(** The objects that go to a family of files; with each goes the set of files that the operating
    system would let be created at that moment. *)
Fixpoint delivered_to (fam : family) (mode : string) (env : os) (k : nat) (objs : list rtcm_obj)
  : list (rtcm_obj * (string -> bool)) :=
  match objs with
  | [] => []
  | o :: r => (if same_family (family_of mode o) fam then [(o, env k)] else []) ++ delivered_to fam mode env (S k) r
  end.

(** An event of a MARGO history is the printing of this object. *)
Definition is_event (e : print_event) (d : rtcm_obj * (string -> bool)) : Prop :=
  fst d = OMsm (MsmScaled (pe_obs e)) /\ pe_can_create e = snd d.

(** The history of printing that these observations call for when every file can be created: one
    event per observation, with the system and the type of the message. *)
Definition history_of (objs : list rtcm_obj) (hist : list print_event) : Prop :=
  map (fun e => OMsm (MsmScaled (pe_obs e))) hist = objs /\
  Forall (fun e => event_ok e /\ forall name, pe_can_create e name = true) hist.
Definition observations (mode : string) (objs : list rtcm_obj) : list rtcm_obj :=
  filter (fun o => same_family (family_of mode o) ObsFiles) objs.

(** The objects, in order, that belong in the JSON file of a message number. *)
Definition numbered (mode : string) (num : Z) (objs : list rtcm_obj) : list rtcm_obj :=
  filter (fun o => same_family (family_of mode o) JsonFiles &&
                   match number_of o with Some n => n =? num | None => false end) objs.

(** Number of refused prints. *)
Definition refused (rs : list (res unit)) : Z :=
  zlen (filter (fun r => match r with Ok _ => false | Err _ => true end) rs).

(** Reads of a file: pieces, none of them empty, that make up the content. *)
Definition reads_ok (reads : list (list Z)) (content : list Z) : Prop :=
  concat reads = content /\ ~ In [] reads.

(** Operations that use the converter. *)
Definition uses_converter (o : op) : bool :=
  match o with OParse | ODecode | OPrint | OStats => true | _ => false end.

(** Two folders are separate: neither is the other or inside it. *)
Definition separate (a b : path) : Prop := a <> b /\ inside a b = false /\ inside b a = false.
(** Work folders of different sources are separate, and no source is in a work folder. *)
Definition independent (mode : string) (files : list path) : Prop :=
  forall x y, In x files -> In y files ->
    (x = y \/ separate (work_folder x mode) (work_folder y mode)) /\ inside (work_folder x mode) y = false.
