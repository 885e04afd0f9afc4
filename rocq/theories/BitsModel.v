(** * BitsModel: model of utilities/bits.py and EphemerisDecoder.getbitS *)
From Verif Require Import PyBase.

(** utilities/bits.py:47 [MAX_BIT_WIDTH = 128] *)
Definition MAX_BIT_WIDTH : Z := 128.

(** utilities/bits.py:49-71 [Bits.getbitu].  [int(1) << length] cannot raise since
    [length >= 1]; the shift count [finish_byte*8 - finish_pos] is in 0..7. *)
Definition getbitu (buf : list Z) (start_pos length : Z) : res Z :=
  if (length <? 1) || (MAX_BIT_WIDTH <? length) || (start_pos <? 0) then Err EBits
  else
    let finish_pos := start_pos + length in
    let finish_byte := Z.shiftr (finish_pos + 7) 3 in
    let start_byte := Z.shiftr start_pos 3 in
    if zlen buf <? finish_byte then Err EBits
    else
      acc <- for_each (zrange start_byte finish_byte) 0
               (fun acc i => b <- py_index buf i ;; Ok (acc * 256 + b)) ;;
      let acc := Z.shiftr acc (finish_byte * 8 - finish_pos) in
      let mask := Z.shiftl 1 length - 1 in
      Ok (Z.land acc mask).

(** utilities/bits.py:73-81 [Bits.getbits] *)
Definition getbits (buf : list Z) (start_pos length : Z) : res Z :=
  acc <- getbitu buf start_pos length ;;
  let mask := Z.shiftl 1 (length - 1) in
  Ok (Z.lxor acc mask - mask).

(** utilities/bits.py:83-98 [Bits.revbitu].  A negative [ofs] makes [a >> ofs] raise
    ValueError; a negative [length] gives an empty loop. *)
Definition revbitu (a length ofs : Z) : res Z :=
  if MAX_BIT_WIDTH <? length + ofs then Err EBits
  else if ofs <? 0 then Err EValue
  else
    let src := Z.shiftr a ofs in
    '(rv, _) <- for_each (zrange 0 length) (0, src)
                  (fun '(rv, src) _ =>
                     Ok (Z.lor (Z.shiftl rv 1) (Z.land src 1), Z.shiftr src 1)) ;;
    Ok rv.

(** utilities/bits.py:100-108 [Bits.revbits].  [1 << (length-1)] raises ValueError for
    [length < 1]. *)
Definition revbits (a length ofs : Z) : res Z :=
  rv <- revbitu a length ofs ;;
  if length - 1 <? 0 then Err EValue
  else
    let mask := Z.shiftl 1 (length - 1) in
    Ok (Z.lxor rv mask - mask).

(** utilities/bits.py:25-38 [catch_bits_exceptions]: any Exception becomes None.
    KeyboardInterrupt (never produced by these functions) propagates. *)
Definition catch_bits {A} (r : res A) : res (option A) :=
  match r with
  | Ok a => Ok (Some a)
  | Err e => if is_exception e then Ok None else Err e
  end.

(** sub_decoders/RTCM_EPH.py:160-166 [EphemerisDecoder.getbitS]; [1 << (length-1)] raises
    ValueError when [length < 1] (before any bit is read). *)
Definition getbitS (buf : list Z) (offcet length : Z) : res Z :=
  if length - 1 <? 0 then Err EValue
  else
    let sgnMask := Z.shiftl 1 (length - 1) in
    let magnMask := sgnMask - 1 in
    d <- getbitu buf offcet length ;;
    let magn := Z.land d magnMask in
    Ok (if Z.land d sgnMask =? 0 then magn else - magn).
