(** * LogModel: the messages that a conversion logs.

    [level] and the logger itself are in SessionModel; a line is a level and a text.  The texts
    of exceptions ([ex.args[0]], [f"{type(ex)}: {ex}"]), of paths and of classes are not
    modelled: they are parameters.  Each definition here repeats the control flow of a definition
    of another model and adds the lines; LogProofs shows that it computes the same result. *)
From Verif Require Import PyBase PyDict PyFloat PyVal PyFormat BitsModel FramerModel TablesModel MsmModel EphModel BaseModel
  DecoderModel MargoModel JsonModel PrinterModel MainModel ControlsModel SessionModel.
Local Open Scope string_scope.
Local Open Scope list_scope.
Local Open Scope Z_scope.

(** the calls of logger.py:67-95 *)
Definition line := (level * text)%type.
(** A computation and the lines it logs (also when it raises). (the calls of logger.py:67-95) *)
Definition logged (A : Type) := (list line * res A)%type.
(** the calls of logger.py:67-95 *)
Definition quiet {A} (r : res A) : logged A := ([], r).
(** the calls of logger.py:67-95 *)
Definition say (l : level) (t : text) : logged unit := ([(l, t)], Ok tt).
(** the calls of logger.py:67-95 *)
Definition also {A B} (x : logged A) (f : A -> logged B) : logged B :=
  match x with
  | (l, Ok a) => let '(l', r) := f a in (l ++ l', r)
  | (l, Err e) => (l, Err e)
  end.
Notation "x <~ e1 ;; e2" := (also e1 (fun x => e2))
  (at level 61, e1 at next level, right associativity).
Notation "' p <~ e1 ;; e2" := (also e1 (fun p => e2))
  (at level 61, p pattern, e1 at next level, right associativity).
(** the calls of logger.py:67-95 *)
Fixpoint each {A B} (l : list A) (b : B) (f : B -> A -> logged B) : logged B :=
  match l with
  | [] => quiet (Ok b)
  | x :: r => b <~ f b x ;; each r b f
  end.

(** [f"{num}"] for a number that may be None.
    (f-strings of the sub-decoders, e.g. sub_decoders/RTCM_MSM.py:690) *)
Definition num_text (n : option Z) : text := match n with Some n => py_int_str n | None => ustr "None" end.

(** ** sub_decoders/RTCM_MSM.py *)

(** lines 490-492, 499-501: [f"No coarse range:gnss={src.atr.gnss},({sat=},{sgn_idx=})"];
    sub_decoders/RTCM_MSM.py:484-501 *)
Definition no_coarse (what : string) (gnss : string) (sat sgn_idx : Z) : logged unit :=
  say LWarning (ustr ("No coarse " ++ what ++ ":gnss=" ++ gnss ++ ",(sat=") ++ py_int_str sat ++
                ustr ",sgn_idx=" ++ py_int_str sgn_idx ++ ustr ")").
(** lines 526-528, 538-540, 551-553, 632-634, 640-642: [f"No fine range:gnss={src.atr.gnss},({sat=},{sgn=})"];
    [sgn] is a short string of letters and digits, so that its repr is the string in single quotes. *)
(** sub_decoders/RTCM_MSM.py:520-553, 624-643 *)
Definition no_fine (what : string) (gnss : string) (sat : Z) (sgn : string) : logged unit :=
  say LInfo (ustr ("No fine " ++ what ++ ":gnss=" ++ gnss ++ ",(sat=") ++ py_int_str sat ++
             ustr (",sgn='" ++ sgn ++ "')")).

(** lines 507-567, as [cells47]; sub_decoders/RTCM_MSM.py:505-566 *)
Fixpoint cells47_log (gnss : string) (fuel : nat) (sgn_map : list string) (src_g : bare_sgn4567)
    (sc : scalers) (ck : checkers) (sat : Z) (rng_ok : bool) (rng : flt)
    (phase_rate_ok : bool) (phase_rate : flt)
    (slots i sgn_idx : Z) (o : obs) : logged (obs * Z) :=
  if slots =? 0 then quiet (Ok (o, sgn_idx)) else
  match fuel with
  | O => quiet (Err EFuel)
  | S fuel =>
    sgn <~ quiet (py_index sgn_map i) ;;
    let i := i + 1 in
    let slotExist := Z.land slots 0x01 in
    let slots := Z.shiftr slots 1 in
    if slotExist =? 0 then
      cells47_log gnss fuel sgn_map src_g sc ck sat rng_ok rng phase_rate_ok phase_rate slots i sgn_idx o
    else
      o_rng' <~
        (if rng_ok then
           f <~ quiet (py_index (sgn_rng_fine src_g) sgn_idx) ;;
           if ck_rng ck f
           then quiet (obs_put (o_rng o) sgn sat
                  (f_mul (f_add rng (f_mul (f_of_int f) (sc_rng sc))) CRNG_1MS))
           else _ <~ no_fine "range" gnss sat sgn ;; quiet (Ok (o_rng o))
         else quiet (Ok (o_rng o))) ;;
      o_phs' <~
        (if rng_ok then
           f <~ quiet (py_index (sgn_phase_fine src_g) sgn_idx) ;;
           if ck_phs ck f
           then quiet (obs_put (o_phs o) sgn sat
                  (f_mul (f_add rng (f_mul (f_of_int f) (sc_phs sc))) CRNG_1MS))
           else _ <~ no_fine "phase" gnss sat sgn ;; quiet (Ok (o_phs o))
         else quiet (Ok (o_phs o))) ;;
      o_dpl' <~
        (if phase_rate_ok then
           f <~ quiet (py_index (sgn_phase_rate_fine src_g) sgn_idx) ;;
           if ck_dpl ck f
           then quiet (obs_put (o_dpl o) sgn sat (f_add phase_rate (f_mul (f_of_int f) (sc_dpl sc))))
           else _ <~ no_fine "doppler" gnss sat sgn ;; quiet (Ok (o_dpl o))
         else quiet (Ok (o_dpl o))) ;;
      '(o_ltm', o_hca', o_c2n') <~ quiet (
        l <- py_index (sgn_lock_time src_g) sgn_idx ;;
        o_ltm' <- obs_put (o_ltm o) sgn sat (sc_ltm sc l) ;;
        c <- py_index (sgn_c2n src_g) sgn_idx ;;
        o_c2n' <- obs_put (o_c2n o) sgn sat (f_mul (f_of_int c) (sc_c2n sc)) ;;
        hc <- py_index (sgn_hc_indc src_g) sgn_idx ;;
        o_hca' <- obs_put (o_hca o) sgn sat (negb (hc =? 0)) ;;
        Ok (o_ltm', o_hca', o_c2n')) ;;
      cells47_log gnss fuel sgn_map src_g sc ck sat rng_ok rng phase_rate_ok phase_rate slots i
        (sgn_idx + 1)
        {| o_rng := o_rng'; o_phs := o_phs'; o_ltm := o_ltm'; o_hca := o_hca';
           o_dpl := o_dpl'; o_c2n := o_c2n' |}
  end.

(** lines 447-583 [_convert_obs47], as [convert_obs47]; sub_decoders/RTCM_MSM.py:447-583 *)
Definition convert_obs47_log (a : attributes) (src_s : bare_sat4567) (src_g : bare_sgn4567)
    (sgn_map : list string) (sat_list slots_per_sat : list Z) : logged obs :=
  let '(sc, ck) := if is_msm7 a || is_msm6 a then (SCALERS67, CHECKERS67)
                   else (SCALERS45, CHECKERS45) in
  let o := {| o_rng := MsmModel.obs_slots sgn_map; o_phs := MsmModel.obs_slots sgn_map;
              o_ltm := MsmModel.obs_slots sgn_map; o_hca := MsmModel.obs_slots sgn_map;
              o_dpl := MsmModel.obs_slots sgn_map; o_c2n := MsmModel.obs_slots sgn_map |} in
  '(o, _, _) <~ each slots_per_sat (o, 0, 0)
    (fun '(o, sat_idx, sgn_idx) slots =>
       sat <~ quiet (py_index sat_list sat_idx) ;;
       ms <~ quiet (py_index (sat_rng_ms src_s) sat_idx) ;;
       let rng_ok := negb (ms =? 255) in
       rng <~ (if rng_ok then
                 quiet (rough <- py_index (sat_rng_rough src_s) sat_idx ;;
                        Ok (f_div (f_of_int (Z.shiftl ms 10 + rough)) (f_of_int 1024)))
               else _ <~ no_coarse "range" (a_gnss a) sat sgn_idx ;; quiet (Ok (f_of_int 0))) ;;
       '(phase_rate_ok, phase_rate) <~
         (if is_msm7 a || is_msm5 a then
            r <~ quiet (py_index (sat_phase_rate_rough src_s) sat_idx) ;;
            if negb (Z.land r 0x3FFF =? 0x2000) then quiet (Ok (true, f_of_int r))
            else _ <~ no_coarse "doppler" (a_gnss a) sat sgn_idx ;; quiet (Ok (false, f_of_int 0))
          else quiet (Ok (false, f_of_int 0))) ;;
       '(o, sgn_idx) <~ cells47_log (a_gnss a) (slot_fuel slots) sgn_map src_g sc ck sat rng_ok rng
                          phase_rate_ok phase_rate slots 0 sgn_idx o ;;
       quiet (Ok (o, sat_idx + 1, sgn_idx))) ;;
  quiet (
    dpl <- obs_prune sgn_map (o_dpl o) ;;
    rng <- obs_prune sgn_map (o_rng o) ;;
    c2n <- obs_prune sgn_map (o_c2n o) ;;
    phs <- obs_prune sgn_map (o_phs o) ;;
    ltm <- obs_prune sgn_map (o_ltm o) ;;
    hca <- obs_prune sgn_map (o_hca o) ;;
    Ok {| o_rng := rng; o_phs := phs; o_ltm := ltm; o_hca := hca; o_dpl := dpl; o_c2n := c2n |}).

(** lines 613-657, as [cells13]; sub_decoders/RTCM_MSM.py:612-657 *)
Fixpoint cells13_log (gnss : string) (fuel : nat) (sgn_map : list string) (src_g : bare_sgn123)
    (sat : Z) (rng_ok : bool) (rng : flt) (ph_ok : bool)
    (slots i sgn_idx : Z) (o : obs) : logged (obs * Z) :=
  if slots =? 0 then quiet (Ok (o, sgn_idx)) else
  match fuel with
  | O => quiet (Err EFuel)
  | S fuel =>
    sgn <~ quiet (py_index sgn_map i) ;;
    let i := i + 1 in
    let slotExist := Z.land slots 0x01 in
    let slots := Z.shiftr slots 1 in
    if slotExist =? 0 then
      cells13_log gnss fuel sgn_map src_g sat rng_ok rng ph_ok slots i sgn_idx o
    else
      '(o_rng', ph_ok) <~
        (if rng_ok then
           f <~ quiet (py_index (sgn1_rng_fine src_g) sgn_idx) ;;
           if negb (Z.land f 0x7FFF =? 0x4000)
           then quiet (d <- obs_put (o_rng o) sgn sat
                         (f_mul (f_add rng (f_mul (f_of_int f) (sc_rng SCALERS45))) CRNG_1MS) ;;
                       Ok (d, ph_ok))
           else _ <~ no_fine "range" gnss sat sgn ;; quiet (Ok (o_rng o, false))
         else quiet (Ok (o_rng o, ph_ok))) ;;
      '(o_phs', o_ltm', o_hca') <~
        (if ph_ok then
           f <~ quiet (py_index (sgn1_phase_fine src_g) sgn_idx) ;;
           if Z.land f 0x3FFFFF =? 0x200000
           then _ <~ no_fine "phase" gnss sat sgn ;; quiet (Ok (o_phs o, o_ltm o, o_hca o))
           else quiet (
             phs <- obs_put (o_phs o) sgn sat
                  (f_mul (f_add rng (f_mul (f_of_int f) (sc_phs SCALERS45))) CRNG_1MS) ;;
             l <- py_index (sgn1_lock_time src_g) sgn_idx ;;
             ltm <- obs_put (o_ltm o) sgn sat (sc_ltm SCALERS45 l) ;;
             hc <- py_index (sgn1_hc_indc src_g) sgn_idx ;;
             hca <- obs_put (o_hca o) sgn sat (negb (hc =? 0)) ;;
             Ok (phs, ltm, hca))
         else quiet (Ok (o_phs o, o_ltm o, o_hca o))) ;;
      cells13_log gnss fuel sgn_map src_g sat rng_ok rng ph_ok slots i (sgn_idx + 1)
        {| o_rng := o_rng'; o_phs := o_phs'; o_ltm := o_ltm'; o_hca := o_hca';
           o_dpl := o_dpl o; o_c2n := o_c2n o |}
  end.

(** lines 585-669 [_convert_obs13], as [convert_obs13]; sub_decoders/RTCM_MSM.py:585-669 *)
Definition convert_obs13_log (a : attributes) (src_s : bare_sat123) (src_g : bare_sgn123)
    (sgn_map : list string) (sat_list slots_per_sat : list Z) : logged obs :=
  let o := {| o_rng := MsmModel.obs_slots sgn_map; o_phs := MsmModel.obs_slots sgn_map;
              o_ltm := MsmModel.obs_slots sgn_map; o_hca := MsmModel.obs_slots sgn_map;
              o_dpl := []; o_c2n := [] |} in
  '(o, _, _) <~ each slots_per_sat (o, 0, 0)
    (fun '(o, sat_idx, sgn_idx) slots =>
       sat <~ quiet (py_index sat_list sat_idx) ;;
       rough <~ quiet (py_index (sat1_rng_rough src_s) sat_idx) ;;
       let rng := f_div (f_of_int rough) (f_of_int 1024) in
       let rng_ok := is_msm1 a || is_msm3 a in
       let ph_ok := is_msm2 a || is_msm3 a in
       '(o, sgn_idx) <~ cells13_log (a_gnss a) (slot_fuel slots) sgn_map src_g sat rng_ok rng ph_ok
                          slots 0 sgn_idx o ;;
       quiet (Ok (o, sat_idx + 1, sgn_idx))) ;;
  quiet (
    rng <- obs_prune sgn_map (o_rng o) ;;
    phs <- obs_prune sgn_map (o_phs o) ;;
    ltm <- obs_prune sgn_map (o_ltm o) ;;
    hca <- obs_prune sgn_map (o_hca o) ;;
    Ok {| o_rng := rng; o_phs := phs; o_ltm := ltm; o_hca := hca;
          o_dpl := o_dpl o; o_c2n := o_c2n o |}).

(** lines 382-445 [convert], as [convert]; sub_decoders/RTCM_MSM.py:382-445 *)
Definition convert_log (src : option bare_msm) : logged (option observables) :=
  match src with
  | None => quiet (Ok None)
  | Some src =>
    let a := bare_atr src in
    let h := bare_header src in
    if String.eqb (a_gnss a) "" then quiet (Ok None) else
    let aux := {| x_rs_id := h_rs_id h; x_MMB := h_MMB h; x_IODS := h_IODS h;
       x_clk_steer := (h_clk_steer h, unpack_clk_steer (h_clk_steer h));
       x_clk_ext := (h_clk_ext h, unpack_clk_ext (h_clk_ext h));
       x_smth_indc := (h_smth_indc h, unpack_smth_indc (h_smth_indc h));
       x_smth_intr := (h_smth_intr h, unpack_smth_intr (h_smth_intr h)) |} in
    if h_sat_mask h =? 0 then
      quiet (Ok (Some {| ob_obs := obs_empty;
                  ob_hdr := {| d_signals := []; d_sats := []; d_time := bare_time src;
                               d_day := bare_day src |};
                  ob_aux := aux; ob_atr := a |}))
    else
      let sat_list := mask_members (h_sat_mask h) 64 in
      let sat_num := zlen sat_list in
      let lits := map (rnx_lit (a_gnss a)) (mask_members (h_sgn_mask h) 32) in
      sgns <~ quiet (map_res (fun s => f <- crr_frq (a_gnss a) s ;;
                                match s with Some s => Ok (s, f) | None => Err EKey end) lits) ;;
      let sgn_map := map fst sgns in
      let signals := fold_left (fun d sf => sset d (fst sf) (snd sf)) sgns [] in
      let M := bit_count (h_sgn_mask h) in
      let mask := Z.shiftl 1 M - 1 in
      let slots_per_sat :=
        map (fun i => Z.land (Z.shiftr (h_cell_mask h) (M * i)) mask) (zrange 0 sat_num) in
      o <~ (match src with
            | Bare4567 a _ s g => convert_obs47_log a s g sgn_map sat_list slots_per_sat
            | Bare123 a _ s g => convert_obs13_log a s g sgn_map sat_list slots_per_sat
            end) ;;
      quiet (Ok (Some {| ob_obs := o;
                  ob_hdr := {| d_signals := signals; d_sats := sat_list;
                               d_time := bare_time src; d_day := bare_day src |};
                  ob_aux := aux; ob_atr := a |}))
  end.

Section Texts.
(** Text of the exception [e] that the frame [buf] causes: [ex.args[0]] or [f"{type(ex)}: {ex}"]. *)
Variable why : list Z -> exn -> text.

(** [f"Msg {num}. "]; sub_decoders/RTCM_MSM.py:690 *)
Definition msg_ (num : option Z) : text := ustr "Msg " ++ num_text num ++ ustr ". ".
(** The handlers of RTCM_MSM.py:685-698, RTCM_EPH.py:744-763 and RTCM_BASE.py:452-470: the line
    for an exception; [own] is the exception class of the decoder, [colon] what follows
    "Decoding failed" for it. *)
Definition failure (own : exn) (colon : string) (num : option Z) (buf : list Z) (e : exn) : line :=
  (LError, msg_ num ++ ustr "Decoding failed" ++
    (match e with
     | EBits => ustr ". "
     | EIndex => ustr ". Indexing error: "
     | EOverflow | EZeroDiv => ustr ". Arithm error: "
     | EBareData => match own with EBareData => ustr colon | _ => ustr ". Unexpected error:" end
     | EEph => match own with EEph => ustr colon | _ => ustr ". Unexpected error:" end
     | EBase => match own with EBase => ustr colon | _ => ustr ". Unexpected error:" end
     | _ => ustr ". Unexpected error:"
     end) ++ why buf e).

(** utilities/bits.py:25-38 [catch_bits_exceptions]: the line of a call that raises. *)
Definition bits_lines (buf : list Z) {A} (r : res (option A)) : list line :=
  match r with Ok None => [(LError, why buf EBits)] | _ => [] end.

(** sub_decoders/RTCM_MSM.py:675-728 [decode_msm17] *)
Definition msm_lines (is_bare_output : bool) (buf : list Z) : list line :=
  let num := match get_msg_num buf with Ok n => n | Err _ => None end in
  bits_lines buf (get_msg_num buf) ++
  match bare_decode buf with
  | Err e => bits_lines buf (get_msg_num buf) ++
             if is_exception e then [failure EBareData ". " num buf e] else []
  | Ok b =>
    if is_bare_output then
      [(LInfo, msg_ num ++ ustr "Decoding succeeded. t = " ++ py_int_str (bare_time b) ++ ustr ", sats = " ++
               py_int_str (bit_count (h_sat_mask (bare_header b))) ++ ustr ".")]
    else
      let '(l, r) := convert_log (Some b) in
      l ++ match r with
           | Ok (Some o) =>
               [(LInfo, msg_ num ++ ustr "Decoding succeeded. t = " ++ py_int_str (d_time (ob_hdr o)) ++ ustr ", sats = " ++
                        py_int_str (zlen (d_sats (ob_hdr o))) ++ ustr ".")]
           | Ok None => [(LError, msg_ num ++ ustr "Decoding was terminated.")]
           | Err e =>
               if is_exception e then
                 [(LError, (match e with
                            | EIndex => ustr "Indexing error"
                            | EOverflow | EZeroDiv => ustr "Arithmetic error"
                            | _ => ustr "Undefined error"
                            end) ++ ustr " in get_scaled_obs() " ++ why buf e)]
               else []
           end
  end.

(** ** sub_decoders/RTCM_EPH.py:733-765 [SubdecoderEph.decode] *)
Definition eph_lines (bare_data : bool) (buf : list Z) : list line :=
  match eph_get_msg_num buf with
  | Err e => if is_exception e then [failure EEph ": " (Some 0) buf e] else []
  | Ok num =>
      match eph_decode bare_data buf with
      | Ok _ => [(LInfo, msg_ (Some num) ++ ustr "Decoding succeeded.")]
      | Err e => if is_exception e then [failure EEph ": " (Some num) buf e] else []
      end
  end.

(** ** sub_decoders/RTCM_BASE.py *)

(** lines 316-352: the names of the fields in the warnings, by key.
    (sub_decoders/RTCM_BASE.py:310-353) *)
Definition bias_field (name : string) : string :=
  if String.eqb name "1C" then "L1CA" else if String.eqb name "1P" then "L1P"
  else if String.eqb name "2C" then "L2CA" else "L2P".
(** lines 299-353: the warnings of [__decode1230]; sub_decoders/RTCM_BASE.py:299-356 *)
Definition lines1230 (buf : list Z) : list line :=
  match ('(bs, offset) <- run_steps buf steps1230 (new_base "BaseGLBS", 24) ;;
         num <- getbitu buf 24 12 ;;
         validity <- getbitu buf offset 4 ;; Ok (num, offset + 4, validity)) with
  | Err _ => []
  | Ok (num, offset, validity) =>
      fst (each masks1230 offset (fun offset '(mask, name) =>
        if negb (Z.land validity mask =? 0) then
          c <~ quiet (getbits buf offset 16) ;;
          _ <~ (if c =? -32768
                then say LWarning (msg_ (Some num) ++ ustr "Field " ++ ustr (bias_field name) ++ ustr " marked as undefined (0x8000)")
                else quiet (Ok tt)) ;;
          quiet (Ok (offset + 16))
        else quiet (Ok offset)))
  end.
(** lines 442-472 [SubdecoderBaseStationData.decode]; sub_decoders/RTCM_BASE.py:442-472 *)
Definition base_lines (bare_data : bool) (buf : list Z) : list line :=
  match base_get_msg_num buf with
  | Err _ => []
  | Ok num =>
      (if num =? 1230 then lines1230 buf else []) ++
      match base_decode bare_data buf with
      | Ok _ => [(LInfo, msg_ (Some num) ++ ustr "Decoding succeeded")]
      | Err e => if is_exception e then [failure EBase ": " (Some num) buf e] else []
      end
  end.

(** ** decoder_top.py *)

(** The lines of a sub-decoder; the subset is its identity (each class has its own).
    (decoder_top.py:138-152) *)
Definition sub_lines (bare : bool) (subset : string) (msg : list Z) : list line :=
  if String.eqb subset "MSM47O" || String.eqb subset "MSM13O" then msm_lines bare msg
  else if String.eqb subset "EPH" then eph_lines bare msg
  else if String.eqb subset "BASE" then base_lines bare msg
  else [].

(** decoder_top.py:138-152, 193-218 [decode], as [decode_body] and [decode] *)
Definition decode_lines (bare : bool) (st : decoder) (msg : list Z) : list line :=
  bits_lines msg (mnum msg) ++
  match mnum msg with
  | Err e => if is_exception e then [(LError, why msg e)] else []
  | Ok num =>
      match find (accepts num) (map snd (d_decoders st)) with
      | None => [(LInfo, ustr "Decoder not found, message " ++ num_text num)]
      | Some dec =>
          sub_lines bare (sd_subset dec) msg ++
          match (match sd_decode dec with Some f => f msg | None => Err ENotImpl end) with
          | Err e => if is_exception e then [(LError, why msg e)] else []
          | Ok rv =>
              match (match num with Some n => zindex (sd_spec dec) n | None => Err EKey end) with
              | Err e => if is_exception e then [(LError, why msg e)] else []
              | Ok cls =>
                  if negb (isinstance rv cls)
                  then [(LWarning, ustr "Decoder " ++ ustr (sd_subset dec) ++ ustr " returned unexpected result for msg " ++ num_text num)]
                  else []
              end
          end
      end
  end.

(** ** printers/margo_printer.py and printer_top.py *)

(** Texts that depend on the operating system: the path and the exception of a file that cannot
    be created, by its name; the text of an assertion, and of a class. *)
Variable ofile_path : string -> text.
Variable ofile_error : string -> text.
Variable assertion : rtcm_obj -> text.
Variable class_text : string -> text.

(** printers/margo_printer.py:410-455, as [append_rows] *)
Fixpoint rows_lines (ctl : margo_controls) (can_create : string -> bool) (st : margo) (pbuf : print_buffer) : list line :=
  match pbuf with
  | [] => []
  | (f, row) :: r =>
      match FORMAT (substring 1 1 f) with
      | Err _ => []
      | Ok (width, frc) =>
          (if negb (is_open st f) && is_ok (margo_path f) && negb (can_create f)
           then [(LError, ustr "Failed to create target file '" ++ ofile_path f ++ ustr "'."); (LError, ofile_error f)]
           else []) ++
          match append ctl can_create st f (format_obs_string row width frc) with
          | (_, Err _) => []
          | (st, Ok _) => rows_lines ctl can_create st r
          end
      end
  end.
(** printers/margo_printer.py:440-470, as [margo_print] *)
Definition margo_lines (ctl : margo_controls) (can_create : string -> bool) (st : margo) (x : rtcm_obj) : list line :=
  match x with
  | OMsm (MsmScaled o) => match to_print_buffer ctl o with Ok pbuf => rows_lines ctl can_create st pbuf | Err _ => [] end
  | _ => []
  end.

(** printer_top.py:125-134, 224-236 [print], as [print_body] and [top_print].  The printer of the
    observation files has the actual class list of [margo_printer]; the JSON printer logs
    nothing. *)
Definition is_margo (p : subprinter world) : bool := String.eqb (sp_format p) "MARGO".
Definition print_lines (ord : list (subprinter world) -> list (subprinter world)) (env : os) (ctl : margo_controls)
    (st : printer_top world) (w : world) (x : rtcm_obj) : list line :=
  match find (takes (class_of x)) (ord (pt_printers st)) with
  | None => [(LWarning, ustr "Printer not found, d-block " ++ class_text (class_of x))]
  | Some p =>
      (if is_margo p then margo_lines ctl (env (w_calls w)) (w_margo w) x else []) ++
      match (match sp_print p with Some f => f w x | None => (w, Err ENotImpl) end) with
      | (_, Err EAssert) => [(LError, assertion x)]
      | _ => []
      end
  end.

(** ** run_conversion.py:100-156 [decode_rtcm_file] *)
Variable ord : list (subprinter world) -> list (subprinter world).
Variable faults : nat -> option fault.
Variable bare : bool.
Variable env : os.
Variable ctl : margo_controls.
(** The path of the source, and the text of the exception [e] in the handlers. *)
Variable fpath : text.
Variable exn_text : exn -> text.
(** What an operation has already logged when an exception arrives while it runs. *)
Variable stray : nat -> list line.

(** State: as [run], with the lines so far. (run_conversion.py:100-156) *)
Definition lact (A : Type) := run -> list line -> run * list line * res A.
(** run_conversion.py:100-156 *)
Definition lret {A} (a : A) : lact A := fun s l => (s, l, Ok a).
(** run_conversion.py:100-156 *)
Definition lraise {A} (e : exn) : lact A := fun s l => (s, l, Err e).
(** run_conversion.py:100-156 *)
Definition landthen {A B} (x : lact A) (f : A -> lact B) : lact B :=
  fun s l => match x s l with (s, l, Ok a) => f a s l | (s, l, Err e) => (s, l, Err e) end.
(** One operation and its lines. (run_conversion.py:100-156) *)
Definition lperform {A} (o : op) (lines : converter world -> world -> list line)
    (f : converter world * world -> (converter world * world) * res A) : lact A :=
  fun s l =>
    let '(s', r) := perform faults o f s in
    (s', l ++ match faults (length (r_trace s)) with
              | Some (Before _) => []
              | Some (During _ _) => stray (length (r_trace s))
              | None => lines (r_conv s) (r_world s)
              end, r).
(** run_conversion.py:100-156 *)
Definition lsilent (o : op) (ls : list line) : lact unit := lperform o (fun _ _ => ls) (fun cw => (cw, Ok tt)).

(** lines 118-121; run_conversion.py:118-121 *)
Fixpoint messages_log (msgs : list (list Z)) : lact unit :=
  match msgs with
  | [] => lret tt
  | m :: r =>
      landthen (lperform ODecode (fun c _ => decode_lines bare (cv_decoder c) m)
                  (fun '(c, w) => let '(c, x) := cv_decode c m in ((c, w), x))) (fun x =>
      landthen (match x with
               | None => lret tt
               | Some o => lperform OPrint (fun c w => print_lines ord env ctl (cv_printer c) w o)
                             (fun '(c, w) => cv_print ord c w o)
               end) (fun _ => messages_log r))
  end.

(** lines 123-132: ["{0:2.2%}, {1:d} messages, prs-dec-prnt errors {2:d}-{3:d}-{4:d}."]; the
    format "%" multiplies by 100 and writes two decimals. (run_conversion.py:123-132) *)
Definition progress_text (size processed : Z) (st : statistics) : text :=
  fmt_float 0 2 (f_mul (f_div (f_of_int processed) (f_of_int size)) (f_of_int 100)) ++ ustr "%, " ++
  py_int_str (decoding_attempts st) ++ ustr " messages, prs-dec-prnt errors " ++
  py_int_str (parsing_errors st) ++ ustr "-" ++ py_int_str (decoding_errors st) ++ ustr "-" ++
  py_int_str (printing_errors st) ++ ustr ".".

(** lines 112-134.  ([get_statistics] is called before the progress line: OStats.);
    run_conversion.py:112-134 *)
Fixpoint chunks_log (size processed : Z) (reads : list (list Z)) : lact unit :=
  landthen (lsilent ORead []) (fun _ =>
  match reads with
  | [] | [] :: _ => lret tt
  | c :: r =>
      let processed := processed + zlen c in
      landthen (lperform OParse (fun _ _ => []) (fun '(cv, w) => let '(cv, ms) := cv_parse cv c in ((cv, w), ms))) (fun ms =>
      landthen (messages_log ms) (fun _ =>
      landthen (lsilent OStats []) (fun _ =>
      landthen (if size =? 0 then lraise EZeroDiv else lret tt) (fun _ =>
      landthen (lperform OProgress (fun c _ => [(LCritical, progress_text size processed (get_statistics c))])
                  (fun cw => (cw, Ok tt))) (fun _ =>
      chunks_log size processed r)))))
  end).

(** lines 106-134; run_conversion.py:105-134 *)
Definition try_log (src : source) : run -> list line -> run * list line * res unit * bool :=
  fun s l =>
    match lperform OOpen (fun _ _ => []) (fun cw => (cw, match src with Some _ => Ok tt | None => Err EOS end)) s l with
    | (s, l, Err e) => (s, l, Err e, false)
    | (s, l, Ok _) =>
        let '(s, l, r) :=
          landthen (lsilent OLog [(LInfo, ustr "Opened file " ++ fpath ++ ustr ".")]) (fun _ => landthen (lsilent OSize []) (fun _ =>
            match src with Some (size, reads) => chunks_log size 0 reads | None => lret tt end)) s l in
        (s, l, r, true)
    end.

(** lines 136-146.  The only OSError of the model is the one of [open]; whether it is a
    FileNotFoundError is the parameter [missing]. *)
Variable missing : bool.
(** run_conversion.py:136-146 *)
Definition handler_log (e : exn) : lact bool :=
  match e with
  | EKeyboard => landthen (lsilent OLog [(LError, ustr "Processing terminated by the user.")]) (fun _ => lret false)
  | _ => landthen (lsilent OLog [(LError, match e with
                                          | EOS => if missing then ustr "Got FileNotFoundError exception."
                                                   else ustr "Got unexpected exception."
                                          | _ => ustr "Got unexpected exception."
                                          end)]) (fun _ =>
         landthen (lsilent OLog [(LError, exn_text e)]) (fun _ => lret false))
  end.

(** lines 147-154; run_conversion.py:147-154 *)
Definition finally_log (opened : bool) : lact unit :=
  landthen (lperform ORelease (fun _ _ => []) (fun '(c, w) => let '(w, r) := cv_release ord c w in ((c, w), r))) (fun _ =>
  landthen (lsilent OLog [(LInfo, if opened then ustr "Closing file " ++ fpath ++ ustr "."
                                  else ustr "Source file " ++ fpath ++ ustr " wasn't opened.")]) (fun _ =>
  if opened then lsilent OCloseFile [] else lret tt)).

(** run_conversion.py:100-156 *)
Definition decode_rtcm_file_log (src : source) : lact bool :=
  fun s l =>
    let '(s, l, r, opened) := try_log src s l in
    let '(s, l, r) := match r with Ok _ => (s, l, Ok true) | Err e => handler_log e s l end in
    match finally_log opened s l with
    | (s, l, Err e) => (s, l, Err e)
    | (s, l, Ok _) => (s, l, r)
    end.
End Texts.
