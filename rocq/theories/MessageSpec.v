(** * MessageSpec: what it means for a transport frame to carry a given bit string. *)
From Verif Require Import PyBase BitsSpec.

(** Preamble 0xD3, six zero bits, ten length bits, payload, three checksum bytes. *)
Definition frame_of (payload crc : list Z) : list Z :=
  [0xD3; zlen payload / 256; zlen payload mod 256] ++ payload ++ crc.

(** [buf] is a transport frame (whatever its three checksum bytes are). *)
Definition transport_frame (buf payload crc : list Z) : Prop :=
  buf = frame_of payload crc /\ zlen payload <= 1023 /\ zlen crc = 3 /\
  bytes_ok payload /\ bytes_ok crc.

(** [buf] is a frame whose payload is the bit string [bits], completed to a whole number of
    bytes by fewer than eight padding bits of any value. *)
Definition carries (buf : list Z) (bits : list bool) : Prop :=
  exists payload crc pad,
    transport_frame buf payload crc /\ bits_of payload = bits ++ pad /\ zlen pad < 8.

(** Values that fit an unsigned / two's complement / sign-magnitude field of width [w]. *)
Definition fits_u (w : nat) (v : Z) : Prop := 0 <= v < 2 ^ Z.of_nat w.
Definition fits_s (w : nat) (v : Z) : Prop := - 2 ^ (Z.of_nat w - 1) <= v < 2 ^ (Z.of_nat w - 1).
Definition fits_sm (w : nat) (v : Z) : Prop := Z.abs v < 2 ^ (Z.of_nat w - 1).

(** Sign-magnitude encoding: sign bit, then |v|. *)
Definition enc_sm (w : nat) (v : Z) : list bool := (v <? 0) :: enc (w - 1) (Z.abs v).
