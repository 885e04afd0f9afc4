(** * BaseSpec: station description messages 1005-1008, 1013, 1029, 1033, 1230.

    Independent of the model: bit strings, Unicode, and Python values only. *)
From Coq Require Import Reals.
From Flocq Require Import Core.
From Verif Require Import PyBase PyDict PyFloat PyVal BitsSpec MessageSpec FloatProofs EphSpec.
Local Open Scope string_scope.
Local Open Scope list_scope.
Local Open Scope Z_scope.

(** ** 1005 / 1006: antenna reference point *)
Definition layout1005 : list lfield :=
  [Fld "msgNum" U 12; (* DF003 *) Fld "bsID" U 12; (* DF021 *) Fld "ITRF_Year" U 6;
   (* DF022 *) Fld "GPS_OK" U 1; (* DF023 *) Fld "GLO_OK" U 1; (* DF024 *) Fld "GAL_OK" U 1;
   (* DF141 *) Fld "isVirtual" U 1; (* DF025 *) Fld "refPoint_X" I 38;
   (* DF142 *) Fld "singleOsc" U 1; (* DF001 *) Rsv 1; (* DF026 *) Fld "refPoint_Y" I 38;
   (* DF364 *) Fld "QC_bias" U 2; (* DF027 *) Fld "refPoint_Z" I 38].
Definition layout1006 : list lfield := layout1005 ++ [(* DF028 *) Fld "height" U 16].

Inductive rp_msg := R1005 | R1006.
Definition rp_layout (t : rp_msg) := match t with R1005 => layout1005 | R1006 => layout1006 end.
Definition rp_number (t : rp_msg) : Z := match t with R1005 => 1005 | R1006 => 1006 end.
Definition rp_class (t : rp_msg) : string := match t with R1005 => "BaseRP" | R1006 => "BaseRPH" end.
Definition rp_bytes (t : rp_msg) : Z := match t with R1005 => 19 | R1006 => 21 end.

(** The first twelve bits of the payload. *)
Definition numbered (payload : list Z) (n : Z) : Prop :=
  2 <= zlen payload /\ uval (firstn 12 (bits_of payload)) = n.

(** Scaled values: flags as booleans, lengths in metres, the quarter-cycle indicator as text. *)
Definition quarter_cycle (v : Z) : string :=
  if v =? 0 then "UNDEF" else if v =? 1 then "CORRECTED" else if v =? 2 then "NOT CORRECTED"
  else "RESERVED".
Definition rp_reports (n : string) (v : Z) (p : pyval) : Prop :=
  if existsb (String.eqb n) ["GPS_OK"; "GLO_OK"; "GAL_OK"; "isVirtual"; "singleOsc"]
  then p = VBool (v =? 1)
  else if existsb (String.eqb n) ["refPoint_X"; "refPoint_Y"; "refPoint_Z"; "height"]
  then reports (Decimal 1 4) v p
  else if String.eqb n "QC_bias" then p = vstr (quarter_cycle v)
  else p = VInt v.

(** ** Text messages *)
(** Bytes, most significant bit first; preceded by their number. *)
Definition octets (s : list Z) : list bool := flat_map (enc 8) s.
Definition counted (s : list Z) : list bool := enc 8 (zlen s) ++ octets s.

(** One counted string of a message: names of the two attributes, and the bytes. *)
Inductive text_msg :=
| T1007 (id : Z) (descr : list Z) (setup : Z)
| T1008 (id : Z) (descr : list Z) (setup : Z) (serial : list Z)
| T1033 (id : Z) (descr : list Z) (setup : Z) (serial rcv fw rcvser : list Z)
| T1029 (id mjd sec chars : Z) (text : list Z).

Definition text_bits (m : text_msg) : list bool :=
  match m with
  | T1007 id d st => enc 12 1007 ++ enc 12 id ++ counted d ++ enc 8 st
  | T1008 id d st s => enc 12 1008 ++ enc 12 id ++ counted d ++ enc 8 st ++ counted s
  | T1033 id d st s r f rs =>
      enc 12 1033 ++ enc 12 id ++ counted d ++ enc 8 st ++ counted s ++ counted r ++ counted f ++
      counted rs
  | T1029 id mjd sec chars t =>
      enc 12 1029 ++ enc 12 id ++ enc 16 mjd ++ enc 17 sec ++ enc 7 chars ++ counted t
  end.

Definition string_ok (s : list Z) : Prop := bytes_ok s /\ zlen s <= 255.
Definition text_ok (m : text_msg) : Prop :=
  match m with
  | T1007 id d st => fits_u 12 id /\ fits_u 8 st /\ string_ok d
  | T1008 id d st s => fits_u 12 id /\ fits_u 8 st /\ string_ok d /\ string_ok s
  | T1033 id d st s r f rs =>
      fits_u 12 id /\ fits_u 8 st /\ string_ok d /\ string_ok s /\ string_ok r /\ string_ok f /\
      string_ok rs
  | T1029 id mjd sec chars t =>
      fits_u 12 id /\ fits_u 16 mjd /\ fits_u 17 sec /\ fits_u 7 chars /\ string_ok t
  end.

Definition text_class (m : text_msg) : string :=
  match m with T1007 _ _ _ => "BaseAD" | T1008 _ _ _ _ => "BaseADSN"
             | T1033 _ _ _ _ _ _ _ => "BaseADSNRC" | T1029 _ _ _ _ _ => "BaseTS" end.

(** The attributes, [show] giving the presentation of a string. *)
Definition text_attrs (show : list Z -> pyval) (m : text_msg) : list (string * pyval) :=
  match m with
  | T1007 id d st =>
      [("msgNum", VInt 1007); ("bsID", VInt id); ("descrLength", VInt (zlen d)); ("descr", show d);
       ("setupID", VInt st)]
  | T1008 id d st s =>
      [("msgNum", VInt 1008); ("bsID", VInt id); ("descrLength", VInt (zlen d)); ("descr", show d);
       ("setupID", VInt st); ("serialNumberLength", VInt (zlen s)); ("serialNumber", show s)]
  | T1033 id d st s r f rs =>
      [("msgNum", VInt 1033); ("bsID", VInt id); ("descrLength", VInt (zlen d)); ("descr", show d);
       ("setupID", VInt st); ("serialNumberLength", VInt (zlen s)); ("serialNumber", show s);
       ("rcvDescriptorLength", VInt (zlen r)); ("rcvDescriptor", show r);
       ("rcvFWVersionLength", VInt (zlen f)); ("rcvFWVersion", show f);
       ("rcvSerNumLength", VInt (zlen rs)); ("rcvSerNum", show rs)]
  | T1029 id mjd sec chars t =>
      [("msgNum", VInt 1029); ("bsID", VInt id); ("modifiedJulianDay", VInt mjd);
       ("daySec", VInt sec); ("charNum", VInt chars); ("unitsNum", VInt (zlen t)); ("message", show t)]
  end.
Definition text_strings (m : text_msg) : list (list Z) :=
  match m with
  | T1007 _ d _ => [d] | T1008 _ d _ s => [d; s] | T1033 _ d _ s r f rs => [d; s; r; f; rs]
  | T1029 _ _ _ _ t => [t]
  end.

(** Bare mode lists the bytes in hexadecimal, separated by single spaces: "0x41 0x7". *)
Definition hex_digits : string := "0123456789abcdef".
Definition hexchar (d : Z) : list Z := ustr (substring (Z.to_nat d) 1 hex_digits).
Definition hex_byte (b : Z) : list Z :=
  ustr "0x" ++ (if b <? 16 then hexchar b else hexchar (b / 16) ++ hexchar (b mod 16)).
Fixpoint spaced (l : list (list Z)) : list Z :=
  match l with [] => [] | [a] => a | a :: r => a ++ ustr " " ++ spaced r end.
Definition hex_listing (s : list Z) : pyval := VStr (spaced (map hex_byte s)).

(** UTF-8 (RFC 3629). *)
Definition scalar_value (c : Z) : Prop := 0 <= c <= 0x10FFFF /\ ~ (0xD800 <= c <= 0xDFFF).
Definition utf8_char (c : Z) : list Z :=
  if c <? 0x80 then [c]
  else if c <? 0x800 then [0xC0 + c / 64; 0x80 + c mod 64]
  else if c <? 0x10000 then [0xE0 + c / 4096; 0x80 + (c / 64) mod 64; 0x80 + c mod 64]
  else [0xF0 + c / 262144; 0x80 + (c / 4096) mod 64; 0x80 + (c / 64) mod 64; 0x80 + c mod 64].
Definition utf8 (text : list Z) : list Z := flat_map utf8_char text.
Definition unicode (text : list Z) : Prop := Forall scalar_value text.

(** ** 1013: system parameters *)
Record announcement := { an_id : Z; an_sync : Z; an_period : Z }.
Definition an_ok (a : announcement) : Prop :=
  fits_u 12 (an_id a) /\ fits_u 1 (an_sync a) /\ fits_u 16 (an_period a).
Definition an_bits (a : announcement) : list bool :=
  enc 12 (an_id a) ++ enc 1 (an_sync a) ++ enc 16 (an_period a).
Definition sp_bits (id mjd sec nm leap : Z) (l : list announcement) : list bool :=
  enc 12 1013 ++ enc 12 id ++ enc 16 mjd ++ enc 17 sec ++ enc 5 nm ++ enc 8 leap ++
  flat_map an_bits l.
Definition sp_ok (id mjd sec nm leap : Z) (l : list announcement) : Prop :=
  fits_u 12 id /\ fits_u 16 mjd /\ fits_u 17 sec /\ fits_u 5 nm /\ fits_u 8 leap /\ Forall an_ok l.
(** The last announcement of a message id. *)
Definition announced (l : list announcement) (id : Z) : option announcement :=
  find (fun a => an_id a =? id) (rev l).

(** ** 1230: GLONASS code-phase biases, present in this order when their mask bit is set *)
Record biases := { b_l1ca : option Z; b_l1p : option Z; b_l2ca : option Z; b_l2p : option Z }.
Definition bias_list (b : biases) : list (string * option Z) :=
  [("1C", b_l1ca b); ("1P", b_l1p b); ("2C", b_l2ca b); ("2P", b_l2p b)].
Definition present (o : option Z) : bool := match o with Some _ => true | None => false end.
Definition opt_enc (o : option Z) : list bool := match o with Some v => enc 16 v | None => [] end.
Definition glbs_bits (id corrected reserved : Z) (b : biases) : list bool :=
  enc 12 1230 ++ enc 12 id ++ enc 1 corrected ++ enc 3 reserved ++
  [present (b_l1ca b); present (b_l1p b); present (b_l2ca b); present (b_l2p b)] ++
  flat_map (fun '(_, o) => opt_enc o) (bias_list b).
Definition opt_fits (o : option Z) : Prop := match o with Some v => fits_s 16 v | None => True end.
Definition glbs_ok (id corrected : Z) (b : biases) : Prop :=
  fits_u 12 id /\ fits_u 1 corrected /\
  opt_fits (b_l1ca b) /\ opt_fits (b_l1p b) /\ opt_fits (b_l2ca b) /\ opt_fits (b_l2p b).
Definition value_or_0 (o : option Z) : Z := match o with Some v => v | None => 0 end.

(** A decoded schedule: one entry per announced message id, that of the last announcement of
    this id, presented as [show] says. *)
Definition schedule_of (show : announcement -> pyval -> Prop) (l : list announcement) (p : pyval) : Prop :=
  exists d, p = VDict d /\ NoDup (map fst d) /\
    (forall k v, In (k, v) d -> exists id a, k = VInt id /\ announced l id = Some a /\ show a v) /\
    (forall id a, announced l id = Some a -> exists v, In (VInt id, v) d).
Definition bare_announcement (a : announcement) (v : pyval) : Prop :=
  v = VTuple [VInt (an_sync a); VInt (an_period a)].
Definition scaled_announcement (a : announcement) (v : pyval) : Prop :=
  exists p, v = VTuple [VBool (an_sync a =? 1); p] /\ reports (Decimal 1 1) (an_period a) p.

(** The dictionaries of a decoded 1230. *)
Definition validity_of (show : bool -> pyval) (b : biases) : pyval :=
  VDict (map (fun '(n, o) => (vstr n, show (present o))) (bias_list b)).
Definition corrections_of (show : Z -> pyval -> Prop) (b : biases) (p : pyval) : Prop :=
  exists d, p = VDict d /\
    Forall2 (fun '(n, o) '(k, v) => k = vstr n /\ show (value_or_0 o) v) (bias_list b) d.
