(** * EphSpec: RTCM 10403 ephemeris messages.

    Independent of the model's tables: layouts and units are written down from the standard,
    and only bit strings ([BitsSpec]) and Python values ([PyVal]) are used. *)
From Coq Require Import Reals.
From Flocq Require Import Core.
From Verif Require Import PyBase PyDict PyFloat PyVal BitsSpec MessageSpec FloatProofs.
Local Open Scope string_scope.
Local Open Scope list_scope.
Local Open Scope Z_scope.

(** A field of a layout: its name in the returned object, its type and width; or reserved
    bits. *)
Inductive ftype := U | I | SM.  (* unsigned, two's complement, sign-magnitude *)
Inductive lfield := Fld (name : string) (t : ftype) (w : nat) | Rsv (w : nat).

Definition field_value (t : ftype) (bits : list bool) : Z :=
  match t with U => uval bits | I => sval bits | SM => smval bits end.

Definition field_width (f : lfield) : nat := match f with Fld _ _ w => w | Rsv w => w end.
Definition layout_width (l : list lfield) : Z :=
  fold_right (fun f n => Z.of_nat (field_width f) + n) 0 l.

(** The named values found in a bit string. *)
Fixpoint fields_of (l : list lfield) (bits : list bool) : list (string * Z) :=
  match l with
  | [] => []
  | Fld n t w :: r => (n, field_value t (firstn w bits)) :: fields_of r (skipn w bits)
  | Rsv w :: r => fields_of r (skipn w bits)
  end.

(** Encoding: one integer per field (any value for reserved bits). *)
Definition encode_field (f : lfield) (v : Z) : list bool :=
  match f with Fld _ SM w => enc_sm w v | Fld _ _ w => enc w v | Rsv w => enc w v end.
Definition fits_field (f : lfield) (v : Z) : Prop :=
  match f with Fld _ U w => fits_u w v | Fld _ I w => fits_s w v | Fld _ SM w => fits_sm w v
             | Rsv _ => True end.
Fixpoint encode_layout (l : list lfield) (vals : list Z) : list bool :=
  match l, vals with
  | f :: r, v :: vs => encode_field f v ++ encode_layout r vs
  | _, _ => []
  end.
Fixpoint named_values (l : list lfield) (vals : list Z) : list (string * Z) :=
  match l, vals with
  | Fld n _ _ :: r, v :: vs => (n, v) :: named_values r vs
  | Rsv _ :: r, _ :: vs => named_values r vs
  | _, _ => []
  end.

(** ** Messages *)
Inductive eph_msg := E1019 | E1020 | E1041 | E1042 | E1044 | E1045 | E1046.
Definition eph_number (t : eph_msg) : Z :=
  match t with E1019 => 1019 | E1020 => 1020 | E1041 => 1041 | E1042 => 1042 | E1044 => 1044
             | E1045 => 1045 | E1046 => 1046 end.
Definition eph_class (t : eph_msg) : string :=
  match t with E1019 => "EphGPS" | E1020 => "EphGLO" | E1041 => "EphNAVIC" | E1042 => "EphBDS"
             | E1044 => "EphQZS" | E1045 => "EphGALF" | E1046 => "EphGALI" end.

Definition layout (t : eph_msg) : list lfield :=
  match t with
  | E1019 => (* GPS *)
    [Fld "msgNum" U 12; (* DF009 *) Fld "satNum" U 6; (* DF076 *) Fld "weekNum" U 10;
     (* DF077 *) Fld "URA" U 4; (* DF078 *) Fld "L2_Codes" U 2; (* DF079 *) Fld "i_dot" I 14;
     (* DF071 *) Fld "IODE" U 8; (* DF081 *) Fld "tc" U 16; (* DF082 *) Fld "af2" I 8;
     (* DF083 *) Fld "af1" I 16; (* DF084 *) Fld "af0" I 22; (* DF085 *) Fld "IODC" U 10;
     (* DF086 *) Fld "crs" I 16; (* DF087 *) Fld "delta_n" I 16; (* DF088 *) Fld "m0" I 32;
     (* DF089 *) Fld "cuc" I 16; (* DF090 *) Fld "e" U 32; (* DF091 *) Fld "cus" I 16;
     (* DF092 *) Fld "sqrt_a" U 32; (* DF093 *) Fld "te" U 16; (* DF094 *) Fld "cic" I 16;
     (* DF095 *) Fld "omega0" I 32; (* DF096 *) Fld "cis" I 16; (* DF097 *) Fld "i0" I 32;
     (* DF098 *) Fld "crc" I 16; (* DF099 *) Fld "w" I 32; (* DF100 *) Fld "omega_dot" I 24;
     (* DF101 *) Fld "TGD" I 8; (* DF102 *) Fld "SVH" U 6; (* DF103 *) Fld "L2P_Data" U 1;
     (* DF137 *) Fld "Fit" U 1]
  | E1020 => (* GLONASS *)
    [Fld "msgNum" U 12; (* DF038 *) Fld "satNum" U 6; (* DF040 *) Fld "frqSloNum" U 5;
     (* DF104 *) Fld "Cn" U 1; (* DF105 *) Fld "AlmHAI" U 1; (* DF106 *) Fld "P1" U 2;
     (* DF107 *) Fld "tk" U 12; (* DF108 *) Fld "BnMSB" U 1; (* DF109 *) Fld "P2" U 1;
     (* DF110 *) Fld "tb" U 7;
     (* DF111 *) Fld "dotXn" SM 24; (* DF112 *) Fld "xn" SM 27; (* DF113 *) Fld "dotDotXn" SM 5;
     (* DF114 *) Fld "dotYn" SM 24; (* DF115 *) Fld "yn" SM 27; (* DF116 *) Fld "dotDotYn" SM 5;
     (* DF117 *) Fld "dotZn" SM 24; (* DF118 *) Fld "zn" SM 27; (* DF119 *) Fld "dotDotZn" SM 5;
     (* DF120 *) Fld "P3" U 1; (* DF121 *) Fld "gamma_n" SM 11; (* DF122 *) Fld "P" U 2;
     (* DF123 *) Fld "ln3" U 1; (* DF124 *) Fld "tauN" SM 22; (* DF125 *) Fld "delta_tauN" SM 5;
     (* DF126 *) Fld "En" U 5; (* DF127 *) Fld "P4" U 1; (* DF128 *) Fld "Ft" U 4;
     (* DF129 *) Fld "Nt" U 11; (* DF130 *) Fld "M" U 2; (* DF131 *) Fld "auxDataOK" U 1;
     (* DF132 *) Fld "Na" U 11; (* DF133 *) Fld "tauC" SM 32; (* DF134 *) Fld "N4" U 5;
     (* DF135 *) Fld "tauGPS" SM 22; (* DF136 *) Fld "ln5" U 1; Rsv 7]
  | E1041 => (* NavIC *)
    [Fld "msgNum" U 12; (* DF516 *) Fld "satNum" U 6; (* DF517 *) Fld "weekNum" U 10;
     (* DF518 *) Fld "af0" I 22; (* DF519 *) Fld "af1" I 16; (* DF520 *) Fld "af2" I 8;
     (* DF521 *) Fld "URA" U 4; (* DF522 *) Fld "tc" U 16; (* DF523 *) Fld "TGD" I 8;
     (* DF524 *) Fld "delta_n" I 22; (* DF525 *) Fld "IODEC" U 8; (* DF526 *) Rsv 10;
     (* DF527 *) Fld "L5_Flag" U 1; (* DF528 *) Fld "S_Flag" U 1;
     (* DF529 *) Fld "cuc" I 15; (* DF530 *) Fld "cus" I 15; (* DF531 *) Fld "cic" I 15;
     (* DF532 *) Fld "cis" I 15; (* DF533 *) Fld "crc" I 15; (* DF534 *) Fld "crs" I 15;
     (* DF535 *) Fld "i_dot" I 14; (* DF536 *) Fld "m0" I 32; (* DF537 *) Fld "te" U 16;
     (* DF538 *) Fld "e" U 32; (* DF539 *) Fld "sqrt_a" U 32; (* DF540 *) Fld "omega0" I 32;
     (* DF541 *) Fld "w" I 32; (* DF542 *) Fld "omega_dot" I 22; (* DF543 *) Fld "i0" I 32;
     (* DF544 *) Rsv 2; (* DF545 *) Rsv 2]
  | E1042 => (* BeiDou *)
    [Fld "msgNum" U 12; (* DF488 *) Fld "satNum" U 6; (* DF489 *) Fld "weekNum" U 13;
     (* DF490 *) Fld "URAI" U 4; (* DF491 *) Fld "i_dot" I 14; (* DF492 *) Fld "AODE" U 5;
     (* DF493 *) Fld "tc" U 17; (* DF494 *) Fld "af2" I 11; (* DF495 *) Fld "af1" I 22;
     (* DF496 *) Fld "af0" I 24; (* DF497 *) Fld "AODC" U 5; (* DF498 *) Fld "crs" I 18;
     (* DF499 *) Fld "delta_n" I 16; (* DF500 *) Fld "m0" I 32; (* DF501 *) Fld "cuc" I 18;
     (* DF502 *) Fld "e" U 32; (* DF503 *) Fld "cus" I 18; (* DF504 *) Fld "sqrt_a" U 32;
     (* DF505 *) Fld "te" U 17; (* DF506 *) Fld "cic" I 18; (* DF507 *) Fld "omega0" I 32;
     (* DF508 *) Fld "cis" I 18; (* DF509 *) Fld "i0" I 32; (* DF510 *) Fld "crc" I 18;
     (* DF511 *) Fld "w" I 32; (* DF512 *) Fld "omega_dot" I 24; (* DF513 *) Fld "TGD1" I 10;
     (* DF514 *) Fld "TGD2" I 10; (* DF515 *) Fld "SVH" U 1]
  | E1044 => (* QZSS *)
    [Fld "msgNum" U 12; (* DF429 *) Fld "satNum" U 4; (* DF430 *) Fld "tc" U 16;
     (* DF431 *) Fld "af2" I 8; (* DF432 *) Fld "af1" I 16; (* DF433 *) Fld "af0" I 22;
     (* DF434 *) Fld "IODE" U 8; (* DF435 *) Fld "crs" I 16; (* DF436 *) Fld "delta_n" I 16;
     (* DF437 *) Fld "m0" I 32; (* DF438 *) Fld "cuc" I 16; (* DF439 *) Fld "e" U 32;
     (* DF440 *) Fld "cus" I 16; (* DF441 *) Fld "sqrt_a" U 32; (* DF442 *) Fld "te" U 16;
     (* DF443 *) Fld "cic" I 16; (* DF444 *) Fld "omega0" I 32; (* DF445 *) Fld "cis" I 16;
     (* DF446 *) Fld "i0" I 32; (* DF447 *) Fld "crc" I 16; (* DF448 *) Fld "w" I 32;
     (* DF449 *) Fld "omega_dot" I 24; (* DF450 *) Fld "i_dot" I 14;
     (* DF451 *) Fld "L2_Codes" U 2; (* DF452 *) Fld "weekNum" U 10; (* DF453 *) Fld "URA" U 4;
     (* DF454 *) Fld "SVH" U 6; (* DF455 *) Fld "TGD" I 8; (* DF456 *) Fld "IODC" U 10;
     (* DF457 *) Fld "Fit" U 1]
  | E1045 => (* Galileo F/NAV *)
    [Fld "msgNum" U 12; (* DF252 *) Fld "satNum" U 6; (* DF289 *) Fld "weekNum" U 12;
     (* DF290 *) Fld "IODnav" U 10; (* DF291 *) Fld "SISA" U 8; (* DF292 *) Fld "i_dot" I 14;
     (* DF293 *) Fld "tc" U 14; (* DF294 *) Fld "af2" I 6; (* DF295 *) Fld "af1" I 21;
     (* DF296 *) Fld "af0" I 31; (* DF297 *) Fld "crs" I 16; (* DF298 *) Fld "delta_n" I 16;
     (* DF299 *) Fld "m0" I 32; (* DF300 *) Fld "cuc" I 16; (* DF301 *) Fld "e" U 32;
     (* DF302 *) Fld "cus" I 16; (* DF303 *) Fld "sqrt_a" U 32; (* DF304 *) Fld "te" U 14;
     (* DF305 *) Fld "cic" I 16; (* DF306 *) Fld "omega0" I 32; (* DF307 *) Fld "cis" I 16;
     (* DF308 *) Fld "i0" I 32; (* DF309 *) Fld "crc" I 16; (* DF310 *) Fld "w" I 32;
     (* DF311 *) Fld "omega_dot" I 24; (* DF312 *) Fld "E5a_BGD" I 10;
     (* DF314 *) Fld "E5a_SHS" U 2; (* DF315 *) Fld "E5a_DVS" U 1; (* DF001 *) Rsv 7]
  | E1046 => (* Galileo I/NAV *)
    [Fld "msgNum" U 12; (* DF252 *) Fld "satNum" U 6; (* DF289 *) Fld "weekNum" U 12;
     (* DF290 *) Fld "IODnav" U 10; (* DF286 *) Fld "SISA" U 8; (* DF292 *) Fld "i_dot" I 14;
     (* DF293 *) Fld "tc" U 14; (* DF294 *) Fld "af2" I 6; (* DF295 *) Fld "af1" I 21;
     (* DF296 *) Fld "af0" I 31; (* DF297 *) Fld "crs" I 16; (* DF298 *) Fld "delta_n" I 16;
     (* DF299 *) Fld "m0" I 32; (* DF300 *) Fld "cuc" I 16; (* DF301 *) Fld "e" U 32;
     (* DF302 *) Fld "cus" I 16; (* DF303 *) Fld "sqrt_a" U 32; (* DF304 *) Fld "te" U 14;
     (* DF305 *) Fld "cic" I 16; (* DF306 *) Fld "omega0" I 32; (* DF307 *) Fld "cis" I 16;
     (* DF308 *) Fld "i0" I 32; (* DF309 *) Fld "crc" I 16; (* DF310 *) Fld "w" I 32;
     (* DF311 *) Fld "omega_dot" I 24; (* DF312 *) Fld "E5a_BGD" I 10;
     (* DF313 *) Fld "E5b_BGD" I 10; (* DF316 *) Fld "E5b_SHS" U 2; (* DF317 *) Fld "E5b_DVS" U 1;
     (* DF287 *) Fld "E1_SHS" U 2; (* DF288 *) Fld "E1_DVS" U 1; (* DF001 *) Rsv 2]
  end.

(** The payload length of a message, in bytes. *)
Definition eph_bytes (t : eph_msg) : Z := (layout_width (layout t) + 7) / 8.

(** ** Physical units: how a transmitted integer is to be reported *)
Inductive punit :=
| Same                  (* as is *)
| TwoPow (k : Z)        (* times 2^-k *)
| Times (n : Z)         (* times n *)
| Decimal (m k : Z)     (* times m / 10^k *)
| Minus (n : Z)         (* offset *)
| TimeOfDay.            (* GLONASS tk: 5 bits hours, 6 bits minutes, 1 bit half-minutes *)

Definition gps_like_unit (n : string) : punit :=
  if existsb (String.eqb n) ["i_dot"; "delta_n"; "omega_dot"; "af1"] then TwoPow 43
  else if existsb (String.eqb n) ["m0"; "omega0"; "i0"; "w"; "af0"; "TGD"] then TwoPow 31
  else if existsb (String.eqb n) ["cuc"; "cus"; "cic"; "cis"] then TwoPow 29
  else if existsb (String.eqb n) ["crs"; "crc"] then TwoPow 5
  else if String.eqb n "af2" then TwoPow 55
  else if String.eqb n "e" then TwoPow 33
  else if String.eqb n "sqrt_a" then TwoPow 19
  else if existsb (String.eqb n) ["tc"; "te"] then Times 16
  else Same.

Definition unit_of (t : eph_msg) (n : string) : punit :=
  match t with
  | E1019 | E1044 => gps_like_unit n
  | E1041 =>
    if existsb (String.eqb n) ["delta_n"; "omega_dot"] then TwoPow 41
    else if existsb (String.eqb n) ["cuc"; "cus"; "cic"; "cis"] then TwoPow 28
    else if existsb (String.eqb n) ["crs"; "crc"] then TwoPow 4
    else gps_like_unit n
  | E1042 =>
    if String.eqb n "af0" then TwoPow 33
    else if String.eqb n "af1" then TwoPow 50
    else if String.eqb n "af2" then TwoPow 66
    else if existsb (String.eqb n) ["cuc"; "cus"; "cic"; "cis"] then TwoPow 31
    else if existsb (String.eqb n) ["crs"; "crc"] then TwoPow 6
    else if existsb (String.eqb n) ["TGD1"; "TGD2"] then Decimal 1 10
    else if existsb (String.eqb n) ["tc"; "te"] then Times 8
    else gps_like_unit n
  | E1045 | E1046 =>
    if String.eqb n "af0" then TwoPow 34
    else if String.eqb n "af1" then TwoPow 46
    else if String.eqb n "af2" then TwoPow 59
    else if existsb (String.eqb n) ["E5a_BGD"; "E5b_BGD"] then TwoPow 32
    else if existsb (String.eqb n) ["tc"; "te"] then Times 60
    else gps_like_unit n
  | E1020 =>
    if existsb (String.eqb n) ["dotXn"; "dotYn"; "dotZn"] then TwoPow 20
    else if existsb (String.eqb n) ["xn"; "yn"; "zn"] then TwoPow 11
    else if existsb (String.eqb n) ["dotDotXn"; "dotDotYn"; "dotDotZn"] then TwoPow 30
    else if String.eqb n "gamma_n" then TwoPow 40
    else if existsb (String.eqb n) ["tauN"; "delta_tauN"; "tauGPS"] then TwoPow 30
    else if String.eqb n "tauC" then TwoPow 31
    else if String.eqb n "tb" then Times 900
    else if String.eqb n "tk" then TimeOfDay
    else if String.eqb n "frqSloNum" then Minus 7
    else Same
  end.

(** [p] reports the integer [v] in unit [u]: integers exactly; powers of two as a binary64
    number that is exactly v * 2^-k; decimal units within one part in 2^51. *)
Definition reports (u : punit) (v : Z) (p : pyval) : Prop :=
  match u with
  | Same => p = VInt v
  | TwoPow k => exists x, p = VFloat x /\ is_val x (IZR v * bpow radix2 (- k))%R
  | Times n => p = VInt (v * n)
  | Decimal m k => exists x r, p = VFloat x /\ is_val x r /\
      let exact := (IZR v * (IZR m / IZR (10 ^ k)))%R in
      (Rabs (r - exact) <= bpow radix2 (-51) * Rabs exact)%R
  | Minus n => p = VInt (v - n)
  | TimeOfDay =>
      let hours := v / 128 in let minutes := (v / 2) mod 64 in let halves := v mod 2 in
      p = VInt (3600 * hours + 60 * minutes + 30 * halves)
  end.

(** ** The returned object

    [o] has class [cls], and exactly the listed attributes with these values, each once. *)
Definition has_exactly (o : pyobj) (cls : string) (attrs : list (string * pyval)) : Prop :=
  po_class o = cls /\ NoDup (map fst (po_attrs o)) /\
  (forall n v, In (n, v) (po_attrs o) <-> In (n, v) attrs).

(** The message number of a payload: its first twelve bits. *)
Definition announces (payload : list Z) (t : eph_msg) : Prop :=
  2 <= zlen payload /\ uval (firstn 12 (bits_of payload)) = eph_number t.
