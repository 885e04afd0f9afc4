(** * PyFloat: Python [float] as IEEE-754 binary64.

    [spec_float] (Coq.Floats.SpecFloat) at precision 53 and emax 1024: computable, round to
    nearest even, no axioms.  Nothing here models a particular repo function. *)
From Coq Require Export SpecFloat.
From Verif Require Import PyBase.

Definition flt := spec_float.
Definition fprec : Z := 53.
Definition femax : Z := 1024.

(** [float(z)] for an int z (correctly rounded; every int converted by the repo is far
    below 2^1024, where Python would raise OverflowError). *)
Definition f_of_int (z : Z) : flt := binary_normalize fprec femax z 0 false.

(** [a * b], [a + b], [a - b], [a / b] on floats.  Python raises ZeroDivisionError for a
    zero divisor; the repo never divides by zero floats without the model saying so. *)
Definition f_mul (a b : flt) : flt := SFmul fprec femax a b.
Definition f_add (a b : flt) : flt := SFadd fprec femax a b.
Definition f_sub (a b : flt) : flt := SFsub fprec femax a b.
Definition f_div (a b : flt) : flt := SFdiv fprec femax a b.

(** The literal [m / 10^k] written in decimal, e.g. [dec_lit 299792458 3] is
    [299792.458].  Both operands are exactly representable (m, 10^k < 2^53), so one
    correctly rounded division gives the double nearest to the decimal, which is what a
    Python literal denotes. *)
Definition dec_lit (m k : Z) : flt := f_div (f_of_int m) (f_of_int (10 ^ k)).

(** [2 ** k] for a negative int k, i.e. [pow(2.0, k)]: exact. *)
Definition f_pow2 (k : Z) : flt := binary_normalize fprec femax 1 k false.

(** Comparisons (false on nan). *)
Definition f_ltb (a b : flt) : bool :=
  match SFcompare a b with Some Lt => true | _ => false end.
Definition f_leb (a b : flt) : bool :=
  match SFcompare a b with Some Lt | Some Eq => true | _ => false end.
Definition f_eqb (a b : flt) : bool :=
  match SFcompare a b with Some Eq => true | _ => false end.
Definition f_abs (a : flt) : flt := SFabs a.
Definition f_neg (a : flt) : flt := SFopp a.
