(** * PyVal: dynamically typed Python values and data-transfer objects. *)
From Coq Require Import Ascii.
From Verif Require Import PyBase PyDict PyFloat.
Local Open Scope string_scope.
Local Open Scope list_scope.
Local Open Scope Z_scope.

(** Values stored in the attributes of the returned objects.  [str] is a list of Unicode
    code points. *)
Inductive pyval : Type :=
| VNone
| VBool (b : bool)
| VInt (z : Z)
| VFloat (f : flt)
| VStr (s : list Z)
| VList (l : list pyval)
| VTuple (l : list pyval)
| VDict (d : list (pyval * pyval)).

(** Code points of an ASCII literal. *)
Fixpoint ustr (s : string) : list Z :=
  match s with
  | EmptyString => []
  | String a r => Z.of_N (N_of_ascii a) :: ustr r
  end.
Definition vstr (s : string) : pyval := VStr (ustr s).

(** An instance: its class and its instance dictionary, in insertion order. *)
Record pyobj := { po_class : string; po_attrs : list (string * pyval) }.

Definition setattr (o : pyobj) (a : string) (v : pyval) : pyobj :=
  {| po_class := po_class o; po_attrs := sset (po_attrs o) a v |}.
