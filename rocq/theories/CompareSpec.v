(** * CompareSpec: what it means that two values agree (C43). *)
From Coq Require Import Reals.
From Flocq Require Import Core.
From Verif Require Import PyBase PyDict PyFloat PyVal FloatProofs CompareModel.
Local Open Scope list_scope.

(** [a] and [b] differ by less than [f * t]: relatively to [b] if [b > t], absolutely if not. *)
Definition within (f t a b : R) : Prop :=
  ((b > t -> Rabs (b - a) < f * t * b) /\ (b <= t -> Rabs (b - a) < f * t))%R.
(** What the documentation says (the sign of the reference does not matter). *)
Definition within_abs (f t a b : R) : Prop :=
  ((Rabs b > t -> Rabs (b - a) < f * t * Rabs b) /\ (Rabs b <= t -> Rabs (b - a) < f * t))%R.

(** Ordinary numbers and tolerances. *)
Definition ordinary (x : flt) (r : R) : Prop := is_val x r /\ (Rabs r <= bpow radix2 800)%R.
Definition tolerance (x : flt) (t : R) : Prop := is_val x t /\ (bpow radix2 (-100) <= t <= 1)%R.
(** Room for two roundings. *)
Definition eps : R := bpow radix2 (-50).

(** The same value up to floats, which are in the relation [near]. *)
Inductive alike (near : flt -> flt -> Prop) : pyval -> pyval -> Prop :=
| alike_int x y z : as_int x = Some z -> as_int y = Some z -> alike near x y
| alike_str s : alike near (VStr s) (VStr s)
| alike_float a b : near a b -> alike near (VFloat a) (VFloat b)
| alike_list a b : Forall2 (alike near) a b -> alike near (VList a) (VList b)
| alike_tuple a b : Forall2 (alike near) a b -> alike near (VTuple a) (VTuple b)
| alike_dict a b : (forall k, has_key a k = has_key b k) ->
    (forall k x, In (k, x) a -> exists y, dget key_eqb b k = Some y /\ alike near x y) -> alike near (VDict a) (VDict b).

(** Values that a copy must agree with: no infinities, no None, keys are ints or strings and occur once. *)
Fixpoint plain (v : pyval) : Prop :=
  match v with
  | VNone => False
  | VFloat (S754_infinity _) => False
  | VList l | VTuple l => fold_right (fun x p => plain x /\ p) True l
  | VDict d => fold_right (fun kv p => match kv with (k, x) => key_eqb k k = true /\ plain x /\ p end) True d /\
               NoDup (map fst d)
  | _ => True
  end.
