(** * FramerModel: model of the byte-stream part of decoder_top.py (DecoderTop) *)
From Verif Require Import PyBase BitsModel CrcModel.

(** decoder_top.py:338-342 [mnum] (None when the buffer is too short) *)
Definition mnum (buf : list Z) : res (option Z) := catch_bits (getbitu buf 24 12).

(** decoder_top.py:344-348 [mlen] *)
Definition mlen (buf : list Z) : res (option Z) :=
  catch_bits (n <- getbitu buf 14 10 ;; Ok (n + 6)).

(** decoder_top.py:350-357 [mcrc] *)
Definition mcrc (buf : list Z) : res (option bool) :=
  catch_bits
    (n <- getbitu buf 14 10 ;;
     let data_len := n + 3 in
     crc_c <- crc_calc (py_slice buf 0 data_len) ;;
     crc_get <- getbitu buf (data_len * 8) 24 ;;
     Ok (crc_c =? crc_get)).

(** decoder_top.py:158-165: the framing-related attributes of DecoderTop. *)
Record framer : Type := mkFramer {
  fr_tail : list Z;          (* _tail *)
  fr_skipped : bool;         (* _skipped_some_bytes *)
  fr_sync : bool;            (* _synchronized *)
  fr_errs : Z                (* __pars_err_cnt *)
}.

(** decoder_top.py:158-165 [__init__] *)
Definition framer_init : framer := mkFramer [] false false 0.

(** [bytes.find(b, ptr)] for a single byte: first index >= ptr, or -1.
    ([bytes.find], decoder_top.py:302) *)
Fixpoint find_from (l : list Z) (b : Z) (i : Z) : Z :=
  match l with
  | [] => -1
  | x :: r => if x =? b then i else find_from r b (i + 1)
  end.
(** [bytes.find], decoder_top.py:302 *)
Definition py_find (l : list Z) (b ptr : Z) : Z := find_from (py_drop l ptr) b ptr.

(** decoder_top.py:299-317, the search loop of [__rebase_to_D3]; returns the new tail.
    [fuel] bounds the number of iterations (FramerProofs.rebase_total: never exhausted). *)
Fixpoint rebase_loop (fuel : nat) (tail : list Z) (ptr : Z) : res (list Z) :=
  match fuel with
  | O => Err EFuel
  | S k =>
      let ofs := py_find tail 0xD3 ptr in
      if ofs =? -1 then Ok []
      else if ofs =? zlen tail - 1 then Ok (py_slice tail ofs (ofs + 1))
      else
        nb <- py_index tail (ofs + 1) ;;
        if Z.land nb 0xFC =? 0 then Ok (py_drop tail ofs)
        else rebase_loop k tail (ofs + 1)
  end.

(** decoder_top.py:275-319 [__rebase_to_D3]: new tail and returned length. *)
Definition rebase (tail : list Z) : res (list Z * Z) :=
  match tail with
  | [] => Ok ([], 0)
  | t0 :: _ =>
      let tail_len := zlen tail in
      let synch_ok := t0 =? 0xD3 in
      if tail_len =? 1 then Ok (tail, if synch_ok then 1 else 0)
      else
        t1 <- py_index tail 1 ;;
        let synch_ok := if synch_ok && negb (Z.land t1 0xFC =? 0) then false else synch_ok in
        if synch_ok then Ok (tail, tail_len)
        else
          tail' <- rebase_loop (length tail) tail 1 ;;
          Ok (tail', zlen tail')
  end.

(** decoder_top.py:229-269, the loop of [catch_message]; [ret] is [ret_list] reversed.
    [search_finished = msg_length > tail_length] with msg_length None is a TypeError;
    a None from [mcrc] is falsy. *)
Fixpoint catch_loop (fuel : nat) (st : framer) (ret : list (list Z))
  : res (framer * list (list Z)) :=
  match fuel with
  | O => Err EFuel
  | S k =>
      let tail_0 := zlen (fr_tail st) in
      '(tail, tail_length) <- rebase (fr_tail st) ;;
      let hit := negb (fr_skipped st) && (tail_length <? tail_0) && fr_sync st in
      let skipped := if hit then true else fr_skipped st in
      let sync := if hit then false else fr_sync st in
      let st1 := mkFramer tail skipped sync (fr_errs st) in
      if tail_length <? 6 then Ok (st1, rev ret)
      else
        ml <- mlen tail ;;
        match ml with
        | None => Err EType
        | Some msg_length =>
            if tail_length <? msg_length then Ok (st1, rev ret)
            else
              c <- mcrc tail ;;
              match c with
              | Some true =>
                  catch_loop k
                    (mkFramer (py_drop tail msg_length) false true
                       (if skipped then fr_errs st + 1 else fr_errs st))
                    (py_slice tail 0 msg_length :: ret)
              | _ => catch_loop k (mkFramer (py_drop tail 1) skipped sync (fr_errs st)) ret
              end
        end
  end.

(** decoder_top.py:222-271 [catch_message] *)
Definition catch_message (st : framer) (chunk : list Z) : res (framer * list (list Z)) :=
  let tail := fr_tail st ++ chunk in
  let st1 := mkFramer tail (fr_skipped st) (fr_sync st) (fr_errs st) in
  match tail with
  | [] => Ok (st1, [])
  | _ => catch_loop (S (length tail)) st1 []
  end.

(** A history of calls: final state and all messages returned, in order.
    (calls of decoder_top.py [catch_message] one after the other) *)
Fixpoint feed (st : framer) (chunks : list (list Z)) : res (framer * list (list Z)) :=
  match chunks with
  | [] => Ok (st, [])
  | c :: r =>
      '(st1, ms) <- catch_message st c ;;
      '(st2, ms') <- feed st1 r ;;
      Ok (st2, ms ++ ms')
  end.
