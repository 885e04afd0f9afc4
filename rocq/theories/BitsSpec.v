(** * BitsSpec: what "the bits of a buffer" and "the value of a bit field" mean.
    Independent of the model: only bit lists, most significant bit first. *)
From Verif Require Import PyBase.

(** The eight bits of a byte, most significant first. *)
Definition byte_bits (b : Z) : list bool :=
  map (Z.testbit b) [7; 6; 5; 4; 3; 2; 1; 0].

(** The bit string carried by a byte string. *)
Definition bits_of (buf : list Z) : list bool := flat_map byte_bits buf.

(** Unsigned value of a bit string, most significant bit first. *)
Fixpoint uval (l : list bool) : Z :=
  match l with
  | [] => 0
  | b :: r => (if b then 2 ^ zlen r else 0) + uval r
  end.

(** Two's complement value: the leading bit weighs [-2^(n-1)]. *)
Definition sval (l : list bool) : Z :=
  match l with
  | [] => 0
  | b :: r => (if b then - 2 ^ zlen r else 0) + uval r
  end.

(** Sign-magnitude value: leading bit is the sign. *)
Definition smval (l : list bool) : Z :=
  match l with
  | [] => 0
  | b :: r => if b then - uval r else uval r
  end.

(** The bits [pos .. pos+len-1] of a buffer. *)
Definition field (buf : list Z) (pos len : Z) : list bool :=
  firstn (Z.to_nat len) (skipn (Z.to_nat pos) (bits_of buf)).

(** Requests that lie inside the buffer and have a supported width. *)
Definition field_inside (buf : list Z) (pos len : Z) : Prop :=
  1 <= len <= 128 /\ 0 <= pos /\ pos + len <= 8 * zlen buf.

(** MSB-first encoding of the low [w] bits of an integer (two's complement for
    negative ones) - used by the message encoders. *)
Fixpoint enc (w : nat) (v : Z) : list bool :=
  match w with
  | O => []
  | S k => Z.testbit v (Z.of_nat k) :: enc k v
  end.

(** Pack a bit string into bytes, zero-padded at the end. *)
Fixpoint pack (l : list bool) : list Z :=
  match l with
  | [] => []
  | [a] => [uval [a; false; false; false; false; false; false; false]]
  | [a; b] => [uval [a; b; false; false; false; false; false; false]]
  | [a; b; c] => [uval [a; b; c; false; false; false; false; false]]
  | [a; b; c; d] => [uval [a; b; c; d; false; false; false; false]]
  | [a; b; c; d; e] => [uval [a; b; c; d; e; false; false; false]]
  | [a; b; c; d; e; f] => [uval [a; b; c; d; e; f; false; false]]
  | [a; b; c; d; e; f; g] => [uval [a; b; c; d; e; f; g; false]]
  | a :: b :: c :: d :: e :: f :: g :: h :: r => uval [a; b; c; d; e; f; g; h] :: pack r
  end.
