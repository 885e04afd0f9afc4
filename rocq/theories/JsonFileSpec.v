(** * JsonFileSpec: what the JSON files must contain. *)
From Verif Require Import PyBase PyDict PyFloat PyVal PyJson JsonSpec MsmModel EphModel DecoderModel JsonModel.
Local Open Scope string_scope.
Local Open Scope list_scope.
Local Open Scope Z_scope.

(** The message number an object carries. *)
Definition number_of (x : rtcm_obj) : option Z :=
  match x with
  | OMsm (MsmScaled o) => Some (a_msg_number (ob_atr o))
  | OMsm (MsmBare b) => Some (a_msg_number (bare_atr b))
  | OPy p => match sget (po_attrs p) "msgNum" with Some (VInt n) => Some n | _ => None end
  end.

(** The value that is printed for an object.  What can be found in it is stated by C40. *)
Definition shown (ctl : json_controls) (x : rtcm_obj) : res pyval :=
  match x with
  | OMsm (MsmScaled o) => Ok (observables_dict ctl o)
  | OMsm (MsmBare b) => Ok (bare_dict ctl b)
  | OPy p => asdict p
  end.

(** Objects that can be shown as JSON: every object of the decoder (C33_decoded_ok). *)
Definition object_ok (ctl : json_controls) (x : rtcm_obj) : Prop :=
  (exists v, shown ctl x = Ok v /\ clean v) /\
  (exists num s, number_of x = Some num /\ zget JSON_SPEC num = Some s) /\
  match x with OPy p => is_json_dataclass (po_class p) = true | _ => True end.
Definition json_of (ctl : json_controls) (x : rtcm_obj) : jv :=
  match shown ctl x with Ok v => jv_of v | Err _ => JNull end.

(** A session: objects printed one after the other; with each goes the set of files that the
    operating system would let the printer create at that moment. *)
Definition session := list (rtcm_obj * (string -> bool)).
Fixpoint print_session (ctl : json_controls) (st : json_printer) (h : session)
  : json_printer * list (res unit) :=
  match h with
  | [] => (st, [])
  | (x, can) :: h =>
      let '(st, r) := json_print ctl can st x in
      let '(st, rs) := print_session ctl st h in (st, r :: rs)
  end.

(** The objects with message number [num] whose printing was not refused. *)
Fixpoint printed (num : Z) (h : session) (rs : list (res unit)) : list rtcm_obj :=
  match h, rs with
  | (x, _) :: h, r :: rs =>
      (match r, number_of x with
       | Ok _, Some n => if n =? num then [x] else []
       | _, _ => []
       end) ++ printed num h rs
  | _, _ => []
  end.

(** The document for a non-empty list of objects: an array starting with the class. *)
Definition document (ctl : json_controls) (x : rtcm_obj) (r : list rtcm_obj) : jv :=
  JArr (JObj [(ustr "source_type", JStr (ustr (class_of x)))] :: map (json_of ctl) (x :: r)).

(** The file at [path] holds the document of these objects; if there are none, it is what it
    was before. *)
Definition holds (ctl : json_controls) (before after : json_printer) (path : string) (objs : list rtcm_obj) : Prop :=
  match objs with
  | [] => sget (jp_files after) path = sget (jp_files before) path
  | x :: r => exists content, sget (jp_files after) path = Some content /\
                read_json content = Some (document ctl x r)
  end.

(** Looking a member up in a JSON object, and following a path of member names. *)
Definition jget (j : jv) (name : list Z) : option jv :=
  match j with
  | JObj d => match find (fun m => if list_eq_dec Z.eq_dec (fst m) name then true else false) d with
              | Some m => Some (snd m) | None => None end
  | _ => None
  end.
Fixpoint jpath (j : jv) (names : list (list Z)) : option jv :=
  match names with
  | [] => Some j
  | n :: r => match jget j n with Some j' => jpath j' r | None => None end
  end.

(** A file that cannot be read as JSON. *)
Definition broken (st : json_printer) (path : string) : Prop :=
  exists c, sget (jp_files st) path = Some c /\ read_json c = None.

(** [json_print], interrupted after [k] of its file operations. *)
Definition print_interrupted (ctl : json_controls) (can_create : string -> bool) (st : json_printer)
    (x : rtcm_obj) (k : nat) : json_printer :=
  match print_ops ctl st x with
  | Err _ => st
  | Ok ops => fst (do_ops can_create st (firstn k ops))
  end.
