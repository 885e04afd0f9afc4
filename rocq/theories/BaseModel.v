(** * BaseModel: model of sub_decoders/RTCM_BASE.py and gnss_types/base_station.py. *)
From Verif Require Import PyBase PyDict PyFloat PyVal PyText BitsModel EphModel.
Local Open Scope string_scope.
Local Open Scope list_scope.
Local Open Scope Z_scope.

(** gnss_types/base_station.py:27-163: the dataclass fields of each class with their
    defaults.  The default of the two dictionaries of BaseGLBS is what [__post_init__]
    (lines 157-163) leaves when the class is called without arguments. *)
Definition bias_defaults : list (string * Z) := [("1C", 0); ("1P", 0); ("2C", 0); ("2P", 0)].
Definition vdict_s (d : list (string * Z)) : pyval :=
  VDict (map (fun '(k, v) => (vstr k, VInt v)) d).

Definition baserp_fields : list (string * pyval) :=
  [("msgNum", VInt 0); ("bsID", VInt 0); ("ITRF_Year", VInt 0); ("GPS_OK", VInt 0);
   ("GLO_OK", VInt 0); ("GAL_OK", VInt 0); ("isVirtual", VInt 0); ("refPoint_X", VInt 0);
   ("singleOsc", VInt 0); ("refPoint_Y", VInt 0); ("QC_bias", VInt 0); ("refPoint_Z", VInt 0)].
Definition basead_fields : list (string * pyval) :=
  [("msgNum", VInt 0); ("bsID", VInt 0); ("descrLength", VInt 0); ("descr", VStr []);
   ("setupID", VInt 0)].
Definition baseadsn_fields : list (string * pyval) :=
  basead_fields ++ [("serialNumberLength", VInt 0); ("serialNumber", VStr [])].

Definition base_fields (cls : string) : list (string * pyval) :=
  if String.eqb cls "BaseRP" then baserp_fields
  else if String.eqb cls "BaseRPH" then baserp_fields ++ [("height", VInt 0)]
  else if String.eqb cls "BaseAD" then basead_fields
  else if String.eqb cls "BaseADSN" then baseadsn_fields
  else if String.eqb cls "BaseADSNRC" then
    baseadsn_fields ++
    [("rcvDescriptorLength", VInt 0); ("rcvDescriptor", VStr []); ("rcvFWVersionLength", VInt 0);
     ("rcvFWVersion", VStr []); ("rcvSerNumLength", VInt 0); ("rcvSerNum", VStr [])]
  else if String.eqb cls "BaseSP" then
    [("msgNum", VInt 0); ("bsID", VInt 0); ("modifiedJulianDay", VInt 0); ("daySec", VInt 0);
     ("Nm", VInt 0); ("leapSec", VInt 0); ("shedule", VDict [])]
  else if String.eqb cls "BaseTS" then
    [("msgNum", VInt 0); ("bsID", VInt 0); ("modifiedJulianDay", VInt 0); ("daySec", VInt 0);
     ("charNum", VInt 0); ("unitsNum", VInt 0); ("message", VStr [])]
  else if String.eqb cls "BaseGLBS" then
    [("msgNum", VInt 0); ("bsID", VInt 0); ("isCorrected", VInt 0);
     ("validity", vdict_s bias_defaults); ("correction", vdict_s bias_defaults)]
  else [].

Definition new_base (cls : string) : pyobj :=
  {| po_class := cls; po_attrs := base_fields cls |}.

(** [o.a] (no class attribute is involved);
    attribute access, e.g. sub_decoders/RTCM_BASE.py:92-111 *)
Definition getattr (o : pyobj) (a : string) : res pyval :=
  match sget (po_attrs o) a with Some v => Ok v | None => Err EAttr end.

(** gnss_types/data_class_methods.py:31-37 [copy]; lines 39-41 [deepcopy] is the identity
    here, since values of the model are immutable. *)
Definition base_copy (o : pyobj) : res pyobj :=
  for_each (map fst (base_fields (po_class o))) (new_base (po_class o))
    (fun r k => v <- getattr o k ;; Ok (setattr r k v)).

(** sub_decoders/RTCM_BASE.py:48-61 [__length_check] *)
Definition base_length_check (Nexp Ndec bufLen : Z) : res unit :=
  if negb (Ndec =? Nexp) then Err EBase
  else if negb (6 + Z.shiftr (Ndec + 7) 3 =? bufLen) then Err EBase
  else Ok tt.

(** ** 1005 / 1006 *)

(** sub_decoders/RTCM_BASE.py:70-81: the statements after the message number. *)
Definition steps10056 : list read_step :=
  [step "bsID" RU 12 12; step "ITRF_Year" RU 6 6; step "GPS_OK" RU 1 1; step "GLO_OK" RU 1 1;
   step "GAL_OK" RU 1 1; step "isVirtual" RU 1 1; step "refPoint_X" RS 38 38;
   step "singleOsc" RU 1 2; step "refPoint_Y" RS 38 38; step "QC_bias" RU 2 2;
   step "refPoint_Z" RS 38 38].

(** sub_decoders/RTCM_BASE.py:63-89 [__decode10056] *)
Definition decode10056 (buf : list Z) : res pyobj :=
  let offset := 24 in
  msgNum <- getbitu buf offset 12 ;;
  let offset := offset + 12 in
  let cls := if msgNum =? 1005 then "BaseRP" else "BaseRPH" in
  let bs := setattr (new_base cls) "msgNum" (VInt msgNum) in
  '(bs, offset) <- run_steps buf steps10056 (bs, offset) ;;
  if String.eqb cls "BaseRPH" then
    h <- getbitu buf offset 16 ;;
    let bs := setattr bs "height" (VInt h) in
    let offset := offset + 16 in
    _ <- base_length_check 168 (offset - 24) (zlen buf) ;;
    Ok bs
  else
    _ <- base_length_check 152 (offset - 24) (zlen buf) ;;
    Ok bs.

(** [x == 1] for the values met here; sub_decoders/RTCM_BASE.py:97-102, 363-367 *)
Definition is_one (v : pyval) : pyval := match v with VInt z => VBool (z =? 1) | _ => VBool false end.
(** [x * <float literal>]; sub_decoders/RTCM_BASE.py:101-109, 259, 368-371 *)
Definition times_lit (v : pyval) (m k : Z) : res pyval :=
  match v with VInt z => Ok (VFloat (f_mul (f_of_int z) (dec_lit m k))) | _ => Err EType end.

(** [bs.a = bs.a == 1] and [bs.a = bs.a * lit]; sub_decoders/RTCM_BASE.py:97-102 *)
Definition set_flag (a : string) (bs : pyobj) : res pyobj :=
  v <- getattr bs a ;; Ok (setattr bs a (is_one v)).
(** sub_decoders/RTCM_BASE.py:101-109 *)
Definition set_times (a : string) (m k : Z) (bs : pyobj) : res pyobj :=
  v <- getattr bs a ;; v' <- times_lit v m k ;; Ok (setattr bs a v').

(** sub_decoders/RTCM_BASE.py:94 *)
Definition QC_VALUES : list string := ["UNDEF"; "CORRECTED"; "NOT CORRECTED"; "RESERVED"].

(** sub_decoders/RTCM_BASE.py:91-111 [__scale10056] *)
Definition scale10056 (ibs : pyobj) : res pyobj :=
  bs <- base_copy ibs ;;
  bs <- set_flag "GPS_OK" bs ;;
  bs <- set_flag "GLO_OK" bs ;;
  bs <- set_flag "GAL_OK" bs ;;
  bs <- set_flag "isVirtual" bs ;;
  bs <- set_times "refPoint_X" 1 4 bs ;;
  bs <- set_flag "singleOsc" bs ;;
  bs <- set_times "refPoint_Y" 1 4 bs ;;
  q <- getattr bs "QC_bias" ;;
  index <- match q with VInt z => Ok z | _ => Err EType end ;;
  qc <- py_index QC_VALUES index ;;
  let bs := setattr bs "QC_bias" (vstr qc) in
  bs <- set_times "refPoint_Z" 1 4 bs ;;
  if String.eqb (po_class bs) "BaseRPH" then set_times "height" 1 4 bs else Ok bs.

(** ** 1007 / 1008 / 1033 *)

(** sub_decoders/RTCM_BASE.py:130-134 (and 146-150, 163-167, 173-177, 180-184, 279-284):
    [n] bytes, each appended as [hex(..) + " "], the result stripped. *)
Definition read_text (buf : list Z) (n offset : Z) : res (list Z * Z) :=
  '(symb, offset) <- for_each (zrange 0 n) ([], offset)
     (fun '(symb, offset) _ =>
        v <- getbitu buf offset 8 ;; Ok (symb ++ py_hex v ++ [32], offset + 8)) ;;
  Ok (py_strip symb, offset).

(** A counted string: [bs.<len>], then [bs.<name>]. (sub_decoders/RTCM_BASE.py:128-188, 277-286) *)
Definition read_counted (buf : list Z) (lname name : string) (bs : pyobj) (offset : Z)
  : res (pyobj * Z * Z) :=
  n <- getbitu buf offset 8 ;;
  let bs := setattr bs lname (VInt n) in
  '(s, offset) <- read_text buf n (offset + 8) ;;
  Ok (setattr bs name (VStr s), offset, n).

(** sub_decoders/RTCM_BASE.py:113-189 [__decode10078_1033] *)
Definition decode10078_1033 (buf : list Z) : res pyobj :=
  let offset := 24 in
  msgNum <- getbitu buf offset 12 ;;
  let offset := offset + 12 in
  let bs := new_base (if msgNum =? 1007 then "BaseAD" else if msgNum =? 1008 then "BaseADSN"
                      else "BaseADSNRC") in
  let bs := setattr bs "msgNum" (VInt msgNum) in
  bsID <- getbitu buf offset 12 ;;
  let bs := setattr bs "bsID" (VInt bsID) in
  let offset := offset + 12 in
  '(bs, offset, descrLength) <- read_counted buf "descrLength" "descr" bs offset ;;
  setupID <- getbitu buf offset 8 ;;
  let bs := setattr bs "setupID" (VInt setupID) in
  let offset := offset + 8 in
  if String.eqb (po_class bs) "BaseAD" then
    _ <- base_length_check (40 + 8 * descrLength) (offset - 24) (zlen buf) ;; Ok bs
  else
    '(bs, offset, serialNumberLength) <- read_counted buf "serialNumberLength" "serialNumber" bs offset ;;
    if String.eqb (po_class bs) "BaseADSN" then
      _ <- base_length_check (48 + 8 * (descrLength + serialNumberLength)) (offset - 24) (zlen buf) ;; Ok bs
    else
      '(bs, offset, rcvDescriptorLength) <-
         read_counted buf "rcvDescriptorLength" "rcvDescriptor" bs offset ;;
      '(bs, offset, rcvFWVersionLength) <-
         read_counted buf "rcvFWVersionLength" "rcvFWVersion" bs offset ;;
      '(bs, offset, rcvSerNumLength) <- read_counted buf "rcvSerNumLength" "rcvSerNum" bs offset ;;
      let strLen := descrLength + serialNumberLength + rcvDescriptorLength
                    + (rcvFWVersionLength + rcvSerNumLength) in
      _ <- base_length_check (72 + 8 * strLen) (offset - 24) (zlen buf) ;; Ok bs.

(** [bytes([int(s, 16) for s in x.split(" ")]).decode("utf-8")];
    sub_decoders/RTCM_BASE.py:199-219, 295 *)
Definition text_of (v : pyval) : res pyval :=
  match v with
  | VStr s => codes <- map_res py_int16 (py_split 32 s) ;;
              b <- py_bytes codes ;;
              t <- utf8_decode b ;;
              Ok (VStr t)
  | _ => Err EAttr
  end.
(** sub_decoders/RTCM_BASE.py:199-219, 295 *)
Definition set_text (a : string) (bs : pyobj) : res pyobj :=
  v <- getattr bs a ;; t <- text_of v ;; Ok (setattr bs a t).

(** sub_decoders/RTCM_BASE.py:191-221 [__scale10078_1033] *)
Definition scale10078_1033 (ibs : pyobj) : res pyobj :=
  let bs := ibs in
  bs <- set_text "descr" bs ;;
  if String.eqb (po_class bs) "BaseAD" then Ok bs
  else
    bs <- set_text "serialNumber" bs ;;
    if String.eqb (po_class bs) "BaseADSN" then Ok bs
    else
      bs <- set_text "rcvDescriptor" bs ;;
      bs <- set_text "rcvFWVersion" bs ;;
      set_text "rcvSerNum" bs.

(** ** 1013 *)

(** sub_decoders/RTCM_BASE.py:228-236 *)
Definition steps1013 : list read_step :=
  [step "msgNum" RU 12 12; step "bsID" RU 12 12; step "modifiedJulianDay" RU 16 16;
   step "daySec" RU 17 17; step "Nm" RU 5 5; step "leapSec" RU 8 8].

Definition vdict_shedule (d : list (Z * (pyval * pyval))) : pyval :=
  VDict (map (fun '(k, (a, b)) => (VInt k, VTuple [a; b])) d).

(** sub_decoders/RTCM_BASE.py:223-250 [__decode1013].  Line 241: the float quotient is at
    least 1/29 away from the next integer unless it is an integer, so that its floor is the
    floor of the exact quotient. *)
Definition decode1013 (buf : list Z) : res pyobj :=
  '(bs, offset) <- run_steps buf steps1013 (new_base "BaseSP", 24) ;;
  vNm <- getattr bs "Nm" ;;
  bNm <- match vNm with VInt z => Ok z | _ => Err EType end ;;
  let Nm := if negb (bNm =? 0) then bNm else (8 * zlen buf - 70) / 29 in
  '(shedule, offset) <- for_each (zrange 0 Nm) ([], offset)
     (fun '(d, offset) _ =>
        ID <- getbitu buf offset 12 ;;
        isPeriodic <- getbitu buf (offset + 12) 1 ;;
        period <- getbitu buf (offset + 13) 16 ;;
        Ok (zset d ID (VInt isPeriodic, VInt period), offset + 29)) ;;
  let bs := setattr bs "shedule" (vdict_shedule shedule) in
  _ <- base_length_check (70 + 29 * Nm) (offset - 24) (zlen buf) ;;
  Ok bs.

(** sub_decoders/RTCM_BASE.py:252-262 [__scale1013]: every value of the dictionary replaced *)
Definition scale1013 (ibs : pyobj) : res pyobj :=
  v <- getattr ibs "shedule" ;;
  match v with
  | VDict d =>
      d' <- map_res (fun '(k, v) =>
              match v with
              | VTuple [a; b] => b' <- times_lit b 1 1 ;; Ok (k, VTuple [is_one a; b'])
              | _ => Err EType
              end) d ;;
      Ok (setattr ibs "shedule" (VDict d'))
  | _ => Err EAttr
  end.

(** ** 1029 *)

(** sub_decoders/RTCM_BASE.py:269-276 *)
Definition steps1029 : list read_step :=
  [step "msgNum" RU 12 12; step "bsID" RU 12 12; step "modifiedJulianDay" RU 16 16;
   step "daySec" RU 17 17; step "charNum" RU 7 7].

(** sub_decoders/RTCM_BASE.py:264-287 [__decode1029] *)
Definition decode1029 (buf : list Z) : res pyobj :=
  '(bs, offset) <- run_steps buf steps1029 (new_base "BaseTS", 24) ;;
  '(bs, offset, unitsNum) <- read_counted buf "unitsNum" "message" bs offset ;;
  _ <- base_length_check (72 + 8 * unitsNum) (offset - 24) (zlen buf) ;;
  Ok bs.

(** sub_decoders/RTCM_BASE.py:289-297 [__scale1029] *)
Definition scale1029 (ibs : pyobj) : res pyobj := set_text "message" ibs.

(** ** 1230 *)

(** sub_decoders/RTCM_BASE.py:304-306 *)
Definition steps1230 : list read_step :=
  [step "msgNum" RU 12 12; step "bsID" RU 12 12; step "isCorrected" RU 1 4].

(** sub_decoders/RTCM_BASE.py:309-353: the four masks in order.  The warnings for -32768 are
    not modelled. *)
Definition masks1230 : list (Z * string) := [(0x08, "1C"); (0x04, "1P"); (0x02, "2C"); (0x01, "2P")].

(** sub_decoders/RTCM_BASE.py:299-356 [__decode1230] *)
Definition decode1230 (buf : list Z) : res pyobj :=
  '(bs, offset) <- run_steps buf steps1230 (new_base "BaseGLBS", 24) ;;
  validity <- getbitu buf offset 4 ;;
  let offset := offset + 4 in
  '(val, cor, offset, N) <- for_each masks1230 (bias_defaults, bias_defaults, offset, 0)
     (fun '(val, cor, offset, N) '(mask, name) =>
        if negb (Z.land validity mask =? 0) then
          c <- getbits buf offset 16 ;;
          Ok (sset val name 1, sset cor name c, offset + 16, N + 1)
        else Ok (val, cor, offset, N)) ;;
  let bs := setattr (setattr bs "validity" (vdict_s val)) "correction" (vdict_s cor) in
  _ <- base_length_check (32 + 16 * N) (offset - 24) (zlen buf) ;;
  Ok bs.

(** sub_decoders/RTCM_BASE.py:358-373 [__scale1230]; the four keys are those of the
    dictionaries, in order. *)
Definition scale1230 (ibs : pyobj) : res pyobj :=
  bs <- set_flag "isCorrected" ibs ;;
  val <- getattr bs "validity" ;;
  cor <- getattr bs "correction" ;;
  match val, cor with
  | VDict v, VDict c =>
      c' <- map_res (fun '(k, x) => x' <- times_lit x 2 1 ;; Ok (k, x')) c ;;
      Ok (setattr (setattr bs "validity" (VDict (map (fun '(k, x) => (k, is_one x)) v)))
            "correction" (VDict c'))
  | _, _ => Err EType
  end.

(** ** Dispatch *)

(** sub_decoders/RTCM_BASE.py:42 *)
Definition base_msgList : list Z := [1005; 1006; 1007; 1008; 1033; 1013; 1029; 1230].

(** sub_decoders/RTCM_BASE.py:44-46 [get_msg_num] *)
Definition base_get_msg_num (buf : list Z) : res Z := getbitu buf 24 12.

(** sub_decoders/RTCM_BASE.py:375-400 [__decode] *)
Definition base_decode_bare (buf : list Z) : res pyobj :=
  msgNum <- base_get_msg_num buf ;;
  if msgNum =? 1005 then decode10056 buf
  else if msgNum =? 1006 then decode10056 buf
  else if msgNum =? 1007 then decode10078_1033 buf
  else if msgNum =? 1008 then decode10078_1033 buf
  else if msgNum =? 1033 then decode10078_1033 buf
  else if msgNum =? 1013 then decode1013 buf
  else if msgNum =? 1029 then decode1029 buf
  else if msgNum =? 1230 then decode1230 buf
  else Err EBase.

(** sub_decoders/RTCM_BASE.py:402-419 [scale] *)
Definition base_scale (bs : pyobj) : res pyobj :=
  let c := po_class bs in
  if String.eqb c "BaseRP" || String.eqb c "BaseRPH" then scale10056 bs
  else if String.eqb c "BaseAD" || String.eqb c "BaseADSN" || String.eqb c "BaseADSNRC"
       then scale10078_1033 bs
  else if String.eqb c "BaseSP" then scale1013 bs
  else if String.eqb c "BaseTS" then scale1029 bs
  else if String.eqb c "BaseGLBS" then scale1230 bs
  else Err EBase.

(** sub_decoders/RTCM_BASE.py:421-429 [decode] *)
Definition base_decode (is_bare_output : bool) (buf : list Z) : res pyobj :=
  baseData <- base_decode_bare buf ;;
  if is_bare_output then Ok baseData else base_scale baseData.

(** sub_decoders/RTCM_BASE.py:442-472 [SubdecoderBaseStationData.decode]: the message number
    is read outside the try block; every Exception inside is logged and None returned.
    Logging is not modelled. *)
Definition subdecoder_base (bare_data : bool) (buf : list Z) : res (option pyobj) :=
  _ <- base_get_msg_num buf ;;
  match base_decode bare_data buf with
  | Ok bs => Ok (Some bs)
  | Err e => if is_exception e then Ok None else Err e
  end.
