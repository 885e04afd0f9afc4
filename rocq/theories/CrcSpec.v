(** * CrcSpec: CRC-24Q as polynomial arithmetic over GF(2).
    A polynomial is a non-negative integer whose bit i is the coefficient of x^i;
    addition is exclusive or. *)
From Verif Require Import PyBase BitsSpec.

(** Carry-less (GF(2)[x]) product of [a] with the polynomial [c]. *)
Fixpoint clmul (a : Z) (c : positive) : Z :=
  match c with
  | xH => a
  | xO c' => Z.shiftl (clmul a c') 1
  | xI c' => Z.lxor a (Z.shiftl (clmul a c') 1)
  end.

(** The CRC-24Q generator x^24+x^23+x^18+x^17+x^14+x^11+x^10+x^7+x^6+x^5+x^4+x^3+x+1. *)
Definition crc24q_gen : positive := 0x1864CFB.

(** [p] is a multiple of the generator. *)
Definition gen_divides (p : Z) : Prop := exists q, 0 <= q /\ clmul q crc24q_gen = p.

(** [r] is the CRC-24Q remainder of byte string [d]: degree < 24 and
    d(x) * x^24 + r(x) is a multiple of the generator. *)
Definition is_crc24q (d : list Z) (r : Z) : Prop :=
  0 <= r < 2 ^ 24 /\ gen_divides (Z.lxor (uval (bits_of d) * 2 ^ 24) r).

(** Bitwise difference of two byte strings. *)
Fixpoint xor_bits (a b : list bool) : list bool :=
  match a, b with
  | x :: a', y :: b' => xorb x y :: xor_bits a' b'
  | _, _ => []
  end.
Definition error_bits (f f' : list Z) : list bool := xor_bits (bits_of f) (bits_of f').
Definition weight (l : list bool) : nat := length (filter (fun b => b) l).

(** All differences lie within a window of [n] consecutive bits. *)
Definition burst (n : nat) (e : list bool) : Prop :=
  exists a b c, e = repeat false a ++ b ++ repeat false c /\ (length b <= n)%nat.
