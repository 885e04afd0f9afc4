(** * EphModel: model of sub_decoders/RTCM_EPH.py and gnss_types/ephemeris.py

    The decoders are straight-line sequences of
    [eph.x, offset = self.getbit?(buf, offset, w), offset + a]; each is modelled by the table
    of its statements (attribute, reader, width, advance), executed in order by
    [run_decoder].  The scalers are straight-line sequences of [eph.x = <expr of ie.x>]; each
    is modelled by the table of its statements. *)
From Verif Require Import PyBase PyDict PyFloat PyVal BitsModel.
Local Open Scope string_scope.
Local Open Scope list_scope.
Local Open Scope Z_scope.

(** gnss_types/ephemeris.py:17-55 [EphHdr], [ClockBias], [Keplerians], in the order in which
    [dataclass] collects inherited fields (reverse method resolution order). *)
Definition kepler_fields : list string :=
  ["msgNum"; "satNum"; "weekNum"; "tc"; "af0"; "af1"; "af2";
   "te"; "delta_n"; "m0"; "e"; "sqrt_a"; "w"; "i0"; "i_dot"; "omega0"; "omega_dot";
   "crs"; "crc"; "cuc"; "cus"; "cic"; "cis"].

(** gnss_types/ephemeris.py:58-182: the dataclass fields of each class.  [L5_Flag = 0] and
    [S_Flag = 0] of EphNAVIC (lines 137-138) have no annotation, so they are class attributes
    and not fields. *)
Definition eph_fields (cls : string) : list string :=
  if String.eqb cls "EphGALF" then kepler_fields ++ ["IODnav"; "SISA"; "E5a_BGD"; "E5a_SHS"; "E5a_DVS"]
  else if String.eqb cls "EphGALI" then
    kepler_fields ++ ["IODnav"; "SISA"; "E5a_BGD"; "E5b_BGD"; "E1_SHS"; "E1_DVS"; "E5b_SHS"; "E5b_DVS"]
  else if String.eqb cls "EphQZS" then
    kepler_fields ++ ["IODE"; "IODC"; "Fit"; "L2_Codes"; "SVH"; "URA"; "TGD"]
  else if String.eqb cls "EphBDS" then
    kepler_fields ++ ["AODE"; "AODC"; "SVH"; "URAI"; "TGD1"; "TGD2"]
  else if String.eqb cls "EphGPS" then
    kepler_fields ++ ["IODE"; "IODC"; "Fit"; "L2_Codes"; "L2P_Data"; "SVH"; "URA"; "TGD"]
  else if String.eqb cls "EphNAVIC" then kepler_fields ++ ["URA"; "TGD"; "IODEC"]
  else if String.eqb cls "EphGLO" then
    ["msgNum"; "satNum"; "frqSloNum"; "tk"; "tb"; "xn"; "dotXn"; "dotDotXn"; "yn"; "dotYn";
     "dotDotYn"; "zn"; "dotZn"; "dotDotZn"; "gamma_n"; "Cn"; "BnMSB"; "AlmHAI"; "P"; "P1"; "P2";
     "P3"; "P4"; "ln3"; "tauN"; "delta_tauN"; "En"; "Ft"; "Nt"; "M"; "auxDataOK"; "Na"; "tauC";
     "N4"; "tauGPS"; "ln5"]
  else [].

(** [EphXXX()]: every field 0. (gnss_types/ephemeris.py, [EphGPS()] and so on) *)
Definition new_eph (cls : string) : pyobj :=
  {| po_class := cls; po_attrs := map (fun a => (a, VInt 0)) (eph_fields cls) |}.

(** [o.a]: instance dictionary, then the class (the two unannotated attributes of EphNAVIC
    are the only class attributes without instance counterpart).
    (gnss_types/ephemeris.py, attribute access) *)
Definition eph_getattr (o : pyobj) (a : string) : res pyval :=
  match sget (po_attrs o) a with
  | Some v => Ok v
  | None => if String.eqb (po_class o) "EphNAVIC" && (String.eqb a "L5_Flag" || String.eqb a "S_Flag")
            then Ok (VInt 0) else Err EAttr
  end.

(** ** Reading *)
(** utilities/bits.py, the three readers *)
Inductive reader := RU | RS | RSM.   (* getbitu, getbits, getbitS *)
(** sub_decoders/RTCM_EPH.py:one statement of the decoders *)
Record read_step := step { st_attr : string; st_read : reader; st_width : Z; st_adv : Z }.

(** sub_decoders/RTCM_EPH.py:one call of a reader *)
Definition read_bits (k : reader) : list Z -> Z -> Z -> res Z :=
  match k with RU => getbitu | RS => getbits | RSM => getbitS end.

(** sub_decoders/RTCM_EPH.py:48-59 [__length_check] *)
Definition eph_length_check (Nexp Ndec bufLen : Z) : res unit :=
  if negb (Ndec =? Nexp) then Err EEph
  else if bufLen <? 6 + Z.shiftr (Ndec + 7) 3 then Err EEph
  else Ok tt.

Definition run_steps (buf : list Z) (steps : list read_step) (st : pyobj * Z) : res (pyobj * Z) :=
  for_each steps st (fun '(eph, offset) s =>
    v <- read_bits (st_read s) buf offset (st_width s) ;;
    Ok (setattr eph (st_attr s) (VInt v), offset + st_adv s)).

Definition run_decoder (cls : string) (steps : list read_step) (Nexp : Z) (buf : list Z) : res pyobj :=
  '(eph, offset) <- run_steps buf steps (new_eph cls, 24) ;;
  _ <- eph_length_check Nexp (offset - 24) (zlen buf) ;;
  Ok eph.

(** ** Scaling statements [eph.x = ...] *)
(** sub_decoders/RTCM_EPH.py:one statement of the scalers *)
Inductive scaler :=
| SCopy               (* ie.x *)
| SPow2 (k : Z)       (* ie.x * (2**-k) *)
| SMul (k : Z)        (* ie.x * k *)
| SDec (m k : Z)      (* ie.x * <decimal literal m/10^k> *)
| STb                 (* ie.x * 15 * 60 *)
| SSub (k : Z)        (* ie.x - k *)
| STk.                (* RTCM_EPH.py:228-231 *)

(** The attributes of a bare object are ints; the other value types do not occur (a float
    would behave alike in Python, a str would raise TypeError).
    (sub_decoders/RTCM_EPH.py:one statement of the scalers) *)
Definition apply_scaler (s : scaler) (v : pyval) : res pyval :=
  match s, v with
  | SCopy, _ => Ok v
  | SPow2 k, VInt z => Ok (VFloat (f_mul (f_of_int z) (f_pow2 (- k))))
  | SMul k, VInt z => Ok (VInt (z * k))
  | SDec m k, VInt z => Ok (VFloat (f_mul (f_of_int z) (dec_lit m k)))
  | STb, VInt z => Ok (VInt (z * 15 * 60))
  | SSub k, VInt z => Ok (VInt (z - k))
  | STk, VInt z =>
      let tk_h := 3600 * Z.land (Z.shiftr z 7) 0x1F in
      let tk_m := 60 * Z.land (Z.shiftr z 1) 0x3F in
      let tk_s := 30 * Z.land z 0x01 in
      Ok (VInt (tk_h + tk_m + tk_s))
  | _, _ => Err EType
  end.

(** sub_decoders/RTCM_EPH.py:the body of a scaler *)
Definition run_scalers (l : list (string * scaler)) (ie eph : pyobj) : res pyobj :=
  for_each l eph (fun eph '(a, s) =>
    v <- eph_getattr ie a ;; v' <- apply_scaler s v ;; Ok (setattr eph a v')).

(** sub_decoders/RTCM_EPH.py:61-101 [EphemerisDecoder.__decode1019] *)
Definition steps1019 : list read_step :=
  [step "msgNum" RU 12 12; step "satNum" RU 6 6; step "weekNum" RU 10 10; step "URA" RU 4 4;
   step "L2_Codes" RU 2 2; step "i_dot" RS 14 14; step "IODE" RU 8 8; step "tc" RU 16 16;
   step "af2" RS 8 8; step "af1" RS 16 16; step "af0" RS 22 22; step "IODC" RU 10 10;
   step "crs" RS 16 16; step "delta_n" RS 16 16; step "m0" RS 32 32; step "cuc" RS 16 16;
   step "e" RU 32 32; step "cus" RS 16 16; step "sqrt_a" RU 32 32; step "te" RU 16 16;
   step "cic" RS 16 16; step "omega0" RS 32 32; step "cis" RS 16 16; step "i0" RS 32 32;
   step "crc" RS 16 16; step "w" RS 32 32; step "omega_dot" RS 24 24; step "TGD" RS 8 8;
   step "SVH" RU 6 6; step "L2P_Data" RU 1 1; step "Fit" RU 1 1].
Definition decode1019 (buf : list Z) : res pyobj := run_decoder "EphGPS" steps1019 488 buf.

(** sub_decoders/RTCM_EPH.py:168-212 [EphemerisDecoder.__decode1020] *)
Definition steps1020 : list read_step :=
  [step "msgNum" RU 12 12; step "satNum" RU 6 6; step "frqSloNum" RU 5 5; step "Cn" RU 1 1;
   step "AlmHAI" RU 1 1; step "P1" RU 2 2; step "tk" RU 12 12; step "BnMSB" RU 1 1;
   step "P2" RU 1 1; step "tb" RU 7 7; step "dotXn" RSM 24 24; step "xn" RSM 27 27;
   step "dotDotXn" RSM 5 5; step "dotYn" RSM 24 24; step "yn" RSM 27 27;
   step "dotDotYn" RSM 5 5; step "dotZn" RSM 24 24; step "zn" RSM 27 27;
   step "dotDotZn" RSM 5 5; step "P3" RU 1 1; step "gamma_n" RSM 11 11; step "P" RU 2 2;
   step "ln3" RU 1 1; step "tauN" RSM 22 22; step "delta_tauN" RSM 5 5; step "En" RU 5 5;
   step "P4" RU 1 1; step "Ft" RU 4 4; step "Nt" RU 11 11; step "M" RU 2 2;
   step "auxDataOK" RU 1 1; step "Na" RU 11 11; step "tauC" RSM 32 32; step "N4" RU 5 5;
   step "tauGPS" RSM 22 22; step "ln5" RU 1 8].
Definition decode1020 (buf : list Z) : res pyobj := run_decoder "EphGLO" steps1020 360 buf.

(** sub_decoders/RTCM_EPH.py:273-313 [EphemerisDecoder.__decode1041] *)
Definition steps1041 : list read_step :=
  [step "msgNum" RU 12 12; step "satNum" RU 6 6; step "weekNum" RU 10 10; step "af0" RS 22 22;
   step "af1" RS 16 16; step "af2" RS 8 8; step "URA" RU 4 4; step "tc" RU 16 16;
   step "TGD" RS 8 8; step "delta_n" RS 22 22; step "IODEC" RU 8 18; step "L5_Flag" RU 1 1;
   step "S_Flag" RU 1 1; step "cuc" RS 15 15; step "cus" RS 15 15; step "cic" RS 15 15;
   step "cis" RS 15 15; step "crc" RS 15 15; step "crs" RS 15 15; step "i_dot" RS 14 14;
   step "m0" RS 32 32; step "te" RU 16 16; step "e" RU 32 32; step "sqrt_a" RU 32 32;
   step "omega0" RS 32 32; step "w" RS 32 32; step "omega_dot" RS 22 22; step "i0" RS 32 36].
Definition decode1041 (buf : list Z) : res pyobj := run_decoder "EphNAVIC" steps1041 482 buf.

(** sub_decoders/RTCM_EPH.py:353-392 [EphemerisDecoder.__decode1042] *)
Definition steps1042 : list read_step :=
  [step "msgNum" RU 12 12; step "satNum" RU 6 6; step "weekNum" RU 13 13; step "URAI" RU 4 4;
   step "i_dot" RS 14 14; step "AODE" RU 5 5; step "tc" RU 17 17; step "af2" RS 11 11;
   step "af1" RS 22 22; step "af0" RS 24 24; step "AODC" RU 5 5; step "crs" RS 18 18;
   step "delta_n" RS 16 16; step "m0" RS 32 32; step "cuc" RS 18 18; step "e" RU 32 32;
   step "cus" RS 18 18; step "sqrt_a" RU 32 32; step "te" RU 17 17; step "cic" RS 18 18;
   step "omega0" RS 32 32; step "cis" RS 18 18; step "i0" RS 32 32; step "crc" RS 18 18;
   step "w" RS 32 32; step "omega_dot" RS 24 24; step "TGD1" RS 10 10; step "TGD2" RS 10 10;
   step "SVH" RU 1 1].
Definition decode1042 (buf : list Z) : res pyobj := run_decoder "EphBDS" steps1042 511 buf.

(** sub_decoders/RTCM_EPH.py:587-625 [EphemerisDecoder.__decode1044] *)
Definition steps1044 : list read_step :=
  [step "msgNum" RU 12 12; step "satNum" RU 4 4; step "tc" RU 16 16; step "af2" RS 8 8;
   step "af1" RS 16 16; step "af0" RS 22 22; step "IODE" RU 8 8; step "crs" RS 16 16;
   step "delta_n" RS 16 16; step "m0" RS 32 32; step "cuc" RS 16 16; step "e" RU 32 32;
   step "cus" RS 16 16; step "sqrt_a" RU 32 32; step "te" RU 16 16; step "cic" RS 16 16;
   step "omega0" RS 32 32; step "cis" RS 16 16; step "i0" RS 32 32; step "crc" RS 16 16;
   step "w" RS 32 32; step "omega_dot" RS 24 24; step "i_dot" RS 14 14; step "L2_Codes" RU 2 2;
   step "weekNum" RU 10 10; step "URA" RU 4 4; step "SVH" RU 6 6; step "TGD" RS 8 8;
   step "IODC" RU 10 8; step "Fit" RU 1 1].
Definition decode1044 (buf : list Z) : res pyobj := run_decoder "EphQZS" steps1044 485 buf.

(** sub_decoders/RTCM_EPH.py:513-549 [EphemerisDecoder.__decode1045] *)
Definition steps1045 : list read_step :=
  [step "msgNum" RU 12 12; step "satNum" RU 6 6; step "weekNum" RU 12 12;
   step "IODnav" RU 10 10; step "SISA" RU 8 8; step "i_dot" RS 14 14; step "tc" RU 14 14;
   step "af2" RS 6 6; step "af1" RS 21 21; step "af0" RS 31 31; step "crs" RS 16 16;
   step "delta_n" RS 16 16; step "m0" RS 32 32; step "cuc" RS 16 16; step "e" RU 32 32;
   step "cus" RS 16 16; step "sqrt_a" RU 32 32; step "te" RU 14 14; step "cic" RS 16 16;
   step "omega0" RS 32 32; step "cis" RS 16 16; step "i0" RS 32 32; step "crc" RS 16 16;
   step "w" RS 32 32; step "omega_dot" RS 24 24; step "E5a_BGD" RS 10 10;
   step "E5a_SHS" RU 2 2; step "E5a_DVS" RU 1 8].
Definition decode1045 (buf : list Z) : res pyobj := run_decoder "EphGALF" steps1045 496 buf.

(** sub_decoders/RTCM_EPH.py:433-472 [EphemerisDecoder.__decode1046] *)
Definition steps1046 : list read_step :=
  [step "msgNum" RU 12 12; step "satNum" RU 6 6; step "weekNum" RU 12 12;
   step "IODnav" RU 10 10; step "SISA" RU 8 8; step "i_dot" RS 14 14; step "tc" RU 14 14;
   step "af2" RS 6 6; step "af1" RS 21 21; step "af0" RS 31 31; step "crs" RS 16 16;
   step "delta_n" RS 16 16; step "m0" RS 32 32; step "cuc" RS 16 16; step "e" RU 32 32;
   step "cus" RS 16 16; step "sqrt_a" RU 32 32; step "te" RU 14 14; step "cic" RS 16 16;
   step "omega0" RS 32 32; step "cis" RS 16 16; step "i0" RS 32 32; step "crc" RS 16 16;
   step "w" RS 32 32; step "omega_dot" RS 24 24; step "E5a_BGD" RS 10 10;
   step "E5b_BGD" RS 10 10; step "E5b_SHS" RU 2 2; step "E5b_DVS" RU 1 1; step "E1_SHS" RU 2 2;
   step "E1_DVS" RU 1 3].
Definition decode1046 (buf : list Z) : res pyobj := run_decoder "EphGALI" steps1046 504 buf.

(** sub_decoders/RTCM_EPH.py:104-158 [EphemerisDecoder.__scale1019]
    ([decorate] is always False: [scale] does not pass it) *)
Definition scalers1019 : list (string * scaler) :=
  [("msgNum", SCopy); ("satNum", SCopy); ("weekNum", SCopy); ("i_dot", SPow2 43);
   ("IODE", SCopy); ("tc", SMul 16); ("af2", SPow2 55); ("af1", SPow2 43); ("af0", SPow2 31);
   ("IODC", SCopy); ("crs", SPow2 5); ("delta_n", SPow2 43); ("m0", SPow2 31);
   ("cuc", SPow2 29); ("e", SPow2 33); ("cus", SPow2 29); ("sqrt_a", SPow2 19);
   ("te", SMul 16); ("cic", SPow2 29); ("omega0", SPow2 31); ("cis", SPow2 29);
   ("i0", SPow2 31); ("crc", SPow2 5); ("w", SPow2 31); ("omega_dot", SPow2 43);
   ("TGD", SPow2 31); ("L2_Codes", SCopy); ("URA", SCopy); ("SVH", SCopy); ("L2P_Data", SCopy);
   ("Fit", SCopy)].

(** sub_decoders/RTCM_EPH.py:215-271 [EphemerisDecoder.__scale1020] *)
Definition scalers1020 : list (string * scaler) :=
  [("msgNum", SCopy); ("satNum", SCopy); ("frqSloNum", SSub 7); ("tk", STk); ("Cn", SCopy);
   ("AlmHAI", SCopy); ("P1", SCopy); ("BnMSB", SCopy); ("P2", SCopy); ("tb", STb);
   ("dotXn", SPow2 20); ("xn", SPow2 11); ("dotDotXn", SPow2 30); ("dotYn", SPow2 20);
   ("yn", SPow2 11); ("dotDotYn", SPow2 30); ("dotZn", SPow2 20); ("zn", SPow2 11);
   ("dotDotZn", SPow2 30); ("P3", SCopy); ("gamma_n", SPow2 40); ("P", SCopy); ("ln3", SCopy);
   ("tauN", SPow2 30); ("delta_tauN", SPow2 30); ("En", SCopy); ("P4", SCopy); ("Ft", SCopy);
   ("Nt", SCopy); ("M", SCopy); ("auxDataOK", SCopy); ("Na", SCopy); ("tauC", SPow2 31);
   ("N4", SCopy); ("tauGPS", SPow2 30); ("ln5", SCopy)].

(** sub_decoders/RTCM_EPH.py:316-351 [EphemerisDecoder.__scale1041] *)
Definition scalers1041 : list (string * scaler) :=
  [("msgNum", SCopy); ("satNum", SCopy); ("weekNum", SCopy); ("af0", SPow2 31);
   ("af1", SPow2 43); ("af2", SPow2 55); ("URA", SCopy); ("tc", SMul 16); ("TGD", SPow2 31);
   ("delta_n", SPow2 41); ("IODEC", SCopy); ("L5_Flag", SCopy); ("S_Flag", SCopy);
   ("cuc", SPow2 28); ("cus", SPow2 28); ("cic", SPow2 28); ("cis", SPow2 28);
   ("crc", SPow2 4); ("crs", SPow2 4); ("i_dot", SPow2 43); ("m0", SPow2 31); ("te", SMul 16);
   ("e", SPow2 33); ("sqrt_a", SPow2 19); ("omega0", SPow2 31); ("w", SPow2 31);
   ("omega_dot", SPow2 41); ("i0", SPow2 31)].

(** sub_decoders/RTCM_EPH.py:395-431 [EphemerisDecoder.__scale1042] *)
Definition scalers1042 : list (string * scaler) :=
  [("msgNum", SCopy); ("satNum", SCopy); ("weekNum", SCopy); ("URAI", SCopy);
   ("i_dot", SPow2 43); ("AODE", SCopy); ("tc", SMul 8); ("af2", SPow2 66); ("af1", SPow2 50);
   ("af0", SPow2 33); ("AODC", SCopy); ("crs", SPow2 6); ("delta_n", SPow2 43);
   ("m0", SPow2 31); ("cuc", SPow2 31); ("e", SPow2 33); ("cus", SPow2 31);
   ("sqrt_a", SPow2 19); ("te", SMul 8); ("cic", SPow2 31); ("omega0", SPow2 31);
   ("cis", SPow2 31); ("i0", SPow2 31); ("crc", SPow2 6); ("w", SPow2 31);
   ("omega_dot", SPow2 43); ("TGD1", SDec 1 10); ("TGD2", SDec 1 10); ("SVH", SCopy)].

(** sub_decoders/RTCM_EPH.py:628-663 [EphemerisDecoder.__scale1044] *)
Definition scalers1044 : list (string * scaler) :=
  [("msgNum", SCopy); ("satNum", SCopy); ("tc", SMul 16); ("af2", SPow2 55); ("af1", SPow2 43);
   ("af0", SPow2 31); ("IODE", SCopy); ("crs", SPow2 5); ("delta_n", SPow2 43);
   ("m0", SPow2 31); ("cuc", SPow2 29); ("e", SPow2 33); ("cus", SPow2 29);
   ("sqrt_a", SPow2 19); ("te", SMul 16); ("cic", SPow2 29); ("omega0", SPow2 31);
   ("cis", SPow2 29); ("i0", SPow2 31); ("crc", SPow2 5); ("w", SPow2 31);
   ("omega_dot", SPow2 43); ("i_dot", SPow2 43); ("L2_Codes", SCopy); ("weekNum", SCopy);
   ("URA", SCopy); ("SVH", SCopy); ("TGD", SPow2 31); ("IODC", SCopy); ("Fit", SCopy)].

(** sub_decoders/RTCM_EPH.py:552-585 [EphemerisDecoder.__scale1045] *)
Definition scalers1045 : list (string * scaler) :=
  [("msgNum", SCopy); ("satNum", SCopy); ("weekNum", SCopy); ("IODnav", SCopy);
   ("SISA", SCopy); ("i_dot", SPow2 43); ("tc", SMul 60); ("af2", SPow2 59); ("af1", SPow2 46);
   ("af0", SPow2 34); ("crs", SPow2 5); ("delta_n", SPow2 43); ("m0", SPow2 31);
   ("cuc", SPow2 29); ("e", SPow2 33); ("cus", SPow2 29); ("sqrt_a", SPow2 19);
   ("te", SMul 60); ("cic", SPow2 29); ("omega0", SPow2 31); ("cis", SPow2 29);
   ("i0", SPow2 31); ("crc", SPow2 5); ("w", SPow2 31); ("omega_dot", SPow2 43);
   ("E5a_BGD", SPow2 32); ("E5a_SHS", SCopy); ("E5a_DVS", SCopy)].

(** sub_decoders/RTCM_EPH.py:475-511 [EphemerisDecoder.__scale1046] *)
Definition scalers1046 : list (string * scaler) :=
  [("msgNum", SCopy); ("satNum", SCopy); ("weekNum", SCopy); ("IODnav", SCopy);
   ("SISA", SCopy); ("i_dot", SPow2 43); ("tc", SMul 60); ("af2", SPow2 59); ("af1", SPow2 46);
   ("af0", SPow2 34); ("crs", SPow2 5); ("delta_n", SPow2 43); ("m0", SPow2 31);
   ("cuc", SPow2 29); ("e", SPow2 33); ("cus", SPow2 29); ("sqrt_a", SPow2 19);
   ("te", SMul 60); ("cic", SPow2 29); ("omega0", SPow2 31); ("cis", SPow2 29);
   ("i0", SPow2 31); ("crc", SPow2 5); ("w", SPow2 31); ("omega_dot", SPow2 43);
   ("E5a_BGD", SPow2 32); ("E5b_BGD", SPow2 32); ("E5b_SHS", SCopy); ("E5b_DVS", SCopy);
   ("E1_SHS", SCopy); ("E1_DVS", SCopy)].

(** ** Dispatch *)

(** sub_decoders/RTCM_EPH.py:42 [msgList] *)
Definition eph_msgList : list Z := [1019; 1020; 1041; 1042; 1044; 1045; 1046].

(** sub_decoders/RTCM_EPH.py:44-46 [get_msg_num] *)
Definition eph_get_msg_num (buf : list Z) : res Z := getbitu buf 24 12.

(** sub_decoders/RTCM_EPH.py:665-686 [__decode] *)
Definition eph_decode_bare (buf : list Z) : res pyobj :=
  msgNum <- eph_get_msg_num buf ;;
  if msgNum =? 1019 then decode1019 buf
  else if msgNum =? 1020 then decode1020 buf
  else if msgNum =? 1041 then decode1041 buf
  else if msgNum =? 1042 then decode1042 buf
  else if msgNum =? 1044 then decode1044 buf
  else if msgNum =? 1045 then decode1045 buf
  else if msgNum =? 1046 then decode1046 buf
  else Err EEph.

(** sub_decoders/RTCM_EPH.py:688-710 [scale]; each scaler creates a fresh object of the same
    class. *)
Definition eph_scale (ie : pyobj) : res pyobj :=
  let c := po_class ie in
  if String.eqb c "EphGPS" then run_scalers scalers1019 ie (new_eph "EphGPS")
  else if String.eqb c "EphGLO" then run_scalers scalers1020 ie (new_eph "EphGLO")
  else if String.eqb c "EphGALF" then run_scalers scalers1045 ie (new_eph "EphGALF")
  else if String.eqb c "EphGALI" then run_scalers scalers1046 ie (new_eph "EphGALI")
  else if String.eqb c "EphBDS" then run_scalers scalers1042 ie (new_eph "EphBDS")
  else if String.eqb c "EphNAVIC" then run_scalers scalers1041 ie (new_eph "EphNAVIC")
  else if String.eqb c "EphQZS" then run_scalers scalers1044 ie (new_eph "EphQZS")
  else Err EEph.

(** sub_decoders/RTCM_EPH.py:712-720 [decode] *)
Definition eph_decode (is_bare_output : bool) (buf : list Z) : res pyobj :=
  eph <- eph_decode_bare buf ;;
  if is_bare_output then Ok eph else eph_scale eph.

(** sub_decoders/RTCM_EPH.py:733-765 [SubdecoderEph.decode]: every Exception is logged and
    None returned.  Logging is not modelled. *)
Definition subdecoder_eph (bare_data : bool) (buf : list Z) : res (option pyobj) :=
  match (_ <- eph_get_msg_num buf ;; eph_decode bare_data buf) with
  | Ok eph => Ok (Some eph)
  | Err e => if is_exception e then Ok None else Err e
  end.
