(** * PyFormat: Python's decimal formatting of ints and floats.  Text is a list of code
    points.  Nothing here models a particular repo function. *)
From Verif Require Import PyBase PyFloat.
From Coq Require Import Lia.
Local Open Scope Z_scope.

(** Decimal digits of n >= 0, most significant first.  The fuel, one more than the number of
    binary digits, is never exhausted (FormatProofs.py_digits_value). *)
Fixpoint digits_aux (fuel : nat) (n : Z) (acc : list Z) : list Z :=
  match fuel with
  | O => acc
  | S k => let acc := (48 + n mod 10) :: acc in
           if n <? 10 then acc else digits_aux k (n / 10) acc
  end.
Definition py_digits (n : Z) : list Z := digits_aux (S (Z.to_nat (Z.log2 n))) n [].

(** [str(z)] *)
Definition py_int_str (z : Z) : list Z :=
  if z <? 0 then 45 :: py_digits (- z) else py_digits z.

(** Right alignment in a field of the given width (longer texts are not cut). *)
Definition pad_left (c : Z) (width : Z) (s : list Z) : list Z :=
  repeat c (Z.to_nat (width - zlen s)) ++ s.

(** [f"{z:{width}d}"] *)
Definition fmt_int (width z : Z) : list Z := pad_left 32 width (py_int_str z).

(** a / b rounded to the nearest integer, ties to even (b > 0). *)
Definition div_rne (a b : Z) : Z :=
  let q := a / b in
  match 2 * (a mod b) ?= b with
  | Lt => q
  | Gt => q + 1
  | Eq => if Z.even q then q else q + 1
  end.

(** |x| * 10^frc rounded to an integer: the conversion is correctly rounded, and ties (which
    are exact, since a double is a binary fraction) go to even. *)
Definition scaled_digits (m e frc : Z) : Z :=
  if 0 <=? e then m * 2 ^ e * 10 ^ frc else div_rne (m * 10 ^ frc) (2 ^ (- e)).

(** Fixed-point text of the integer n / 10^frc. *)
Definition fixed_text (frc n : Z) : list Z :=
  py_digits (n / 10 ^ frc) ++
  (if frc =? 0 then [] else 46 :: pad_left 48 frc (py_digits (n mod 10 ^ frc))).

(** [f"{x:{width}.{frc}f}"] *)
Definition fmt_float (width frc : Z) (x : flt) : list Z :=
  let sign (s : bool) (t : list Z) := if s then 45 :: t else t in
  pad_left 32 width
    match x with
    | S754_zero s => sign s (fixed_text frc 0)
    | S754_infinity s => sign s [105; 110; 102]
    | S754_nan => [110; 97; 110]
    | S754_finite s m e => sign s (fixed_text frc (scaled_digits (Zpos m) e frc))
    end.

(** [",".join(l)] *)
Fixpoint py_join (sep : Z) (l : list (list Z)) : list Z :=
  match l with
  | [] => []
  | [x] => x
  | x :: r => x ++ sep :: py_join sep r
  end.
