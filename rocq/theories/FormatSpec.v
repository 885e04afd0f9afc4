(** * FormatSpec: what it means for a text to show a number. *)
From Coq Require Import ZArith Reals List.
From Flocq Require Import Core BinarySingleNaN.
From Verif Require Import PyBase PyFloat.
Local Open Scope Z_scope.

Definition digit (c : Z) : Prop := 48 <= c <= 57.
(** Value of a digit string. *)
Definition digit_value (l : list Z) : Z := fold_left (fun a c => 10 * a + (c - 48)) l 0.

(** [t] is the decimal numeral  [-]ddd[.ddd]  with [frc] digits after the point, and its value
    is n / 10^frc. *)
Definition decimal_text (frc : Z) (t : list Z) (n : Z) : Prop :=
  exists (sign : bool) ip fp,
    t = (if sign then [45] else []) ++ ip ++ (if frc =? 0 then [] else 46 :: fp) /\
    Forall digit ip /\ ip <> [] /\ Forall digit fp /\ zlen fp = frc /\
    n = (if sign then - digit_value (ip ++ fp) else digit_value (ip ++ fp)).

(** Padded on the left with spaces up to the given width. *)
Definition padded (width : Z) (t s : list Z) : Prop :=
  exists n, s = repeat 32 n ++ t /\ zlen s = Z.max width (zlen t).

(** [s] shows the double [x] with [frc] decimals, right-aligned in [width] columns: the numeral
    is a nearest one, i.e. within half a unit of its last digit. *)
Definition shows (width frc : Z) (x : flt) (s : list Z) : Prop :=
  exists t n, padded width t s /\ decimal_text frc t n /\
    (Rabs (SF2R radix2 x - IZR n / IZR (10 ^ frc)) <= / 2 / IZR (10 ^ frc))%R.

(** [s] shows the integer [z], right-aligned. *)
Definition shows_int (width z : Z) (s : list Z) : Prop :=
  exists t, padded width t s /\ decimal_text 0 t z.

(** Characters that can occur inside a CSV field: no comma, no line feed. *)
Definition plain (c : Z) : Prop := c <> 44 /\ c <> 10.

(** The line made of the given fields: separated by commas, ended by a line feed. *)
Fixpoint csv (fields : list (list Z)) : list Z :=
  match fields with
  | [] => [10]
  | [f] => f ++ [10]
  | f :: r => f ++ 44 :: csv r
  end.
