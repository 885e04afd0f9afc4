(** * MsmModel: model of sub_decoders/RTCM_MSM.py (bare decoder and scaler) and of the
    containers in gnss_types/observables.py.

    Logging calls are not modelled.  Objects that the code mutates in place and discards on
    an exception are modelled as values built step by step. *)
From Verif Require Import PyBase PyDict PyFloat BitsModel TablesModel.
Local Open Scope string_scope.
Local Open Scope Z_scope.

(** gnss_types/observables.py:36-52 [Attributes] *)
Record attributes := { a_gnss : string; a_subset : string; a_msg_number : Z }.

(** gnss_types/observables.py:54-87 [Attributes.is_msm7 .. is_msm1] *)
Definition is_msm7 (a : attributes) : bool := String.eqb (a_subset a) "MSM7".
Definition is_msm6 (a : attributes) : bool := String.eqb (a_subset a) "MSM6".
Definition is_msm5 (a : attributes) : bool := String.eqb (a_subset a) "MSM5".
Definition is_msm4 (a : attributes) : bool := String.eqb (a_subset a) "MSM4".
Definition is_msm3 (a : attributes) : bool := String.eqb (a_subset a) "MSM3".
Definition is_msm2 (a : attributes) : bool := String.eqb (a_subset a) "MSM2".
Definition is_msm1 (a : attributes) : bool := String.eqb (a_subset a) "MSM1".

(** gnss_types/observables.py:204-236 [_BareObservablesHdrMSM] *)
Record bare_hdr := {
  h_rs_id : Z; h_time : Z; h_MMB : Z; h_IODS : Z; h_clk_steer : Z; h_clk_ext : Z;
  h_smth_indc : Z; h_smth_intr : Z; h_sat_mask : Z; h_sgn_mask : Z; h_cell_mask : Z }.

(** gnss_types/observables.py:239-252 [_BareObservablesSatDataMSM4567] *)
Record bare_sat4567 := {
  sat_rng_ms : list Z; sat_ext_info : list Z; sat_rng_rough : list Z;
  sat_phase_rate_rough : list Z }.

(** gnss_types/observables.py:255-277 [_BareObservablesSignalDataMSM4567] *)
Record bare_sgn4567 := {
  sgn_rng_fine : list Z; sgn_phase_fine : list Z; sgn_lock_time : list Z;
  sgn_hc_indc : list Z; sgn_c2n : list Z; sgn_phase_rate_fine : list Z }.

(** gnss_types/observables.py:309-319 [_BareObservablesSatDataMSM123] *)
Record bare_sat123 := { sat1_rng_rough : list Z }.

(** gnss_types/observables.py:322-335 [_BareObservablesSignalDataMSM123] *)
Record bare_sgn123 := {
  sgn1_rng_fine : list Z; sgn1_phase_fine : list Z; sgn1_lock_time : list Z;
  sgn1_hc_indc : list Z }.

(** gnss_types/observables.py:280-296 and 338-354 [BareObservablesMSM4567] and
    [BareObservablesMSM123]: the constructor is the Python class. *)
Inductive bare_msm :=
| Bare4567 (a : attributes) (h : bare_hdr) (s : bare_sat4567) (g : bare_sgn4567)
| Bare123 (a : attributes) (h : bare_hdr) (s : bare_sat123) (g : bare_sgn123).

Definition bare_atr (b : bare_msm) : attributes :=
  match b with Bare4567 a _ _ _ => a | Bare123 a _ _ _ => a end.
Definition bare_header (b : bare_msm) : bare_hdr :=
  match b with Bare4567 _ h _ _ => h | Bare123 _ h _ _ => h end.

(** gnss_types/observables.py:298-306 and 356-364 [time], [day] *)
Definition bare_time (b : bare_msm) : Z :=
  if String.eqb (a_gnss (bare_atr b)) "R"
  then Z.land (h_time (bare_header b)) 0x7FFFFFF else h_time (bare_header b).
Definition bare_day (b : bare_msm) : Z :=
  if String.eqb (a_gnss (bare_atr b)) "R"
  then Z.land (Z.shiftr (h_time (bare_header b)) 27) 0x07 else 0.

(** [int.bit_count()]: number of ones in the binary expansion of |z|.
    ([int.bit_count] in sub_decoders/RTCM_MSM.py:130-131, 161-163, 264-266, 434) *)
Fixpoint pos_count (p : positive) : Z :=
  match p with xH => 1 | xO q => pos_count q | xI q => 1 + pos_count q end.
(** [int.bit_count] in sub_decoders/RTCM_MSM.py:130-131, 161-163, 264-266, 434 *)
Definition bit_count (z : Z) : Z :=
  match z with Z0 => 0 | Zpos p => pos_count p | Zneg p => pos_count p end.

(** ** Bare decoder *)

(** sub_decoders/RTCM_MSM.py:39 *)
Definition MIN_HDR_LEN : Z := 169.

(** sub_decoders/RTCM_MSM.py:41-47 *)
Definition BIT_WIDTH_7 : list Z := [8; 4; 10; 14; 20; 24; 10; 1; 10; 15].
Definition BIT_WIDTH_6 : list Z := [8; 10; 20; 24; 10; 1; 10].
Definition BIT_WIDTH_5 : list Z := [8; 4; 10; 14; 15; 22; 4; 1; 6; 15].
Definition BIT_WIDTH_4 : list Z := [8; 10; 15; 22; 4; 1; 6].
Definition BIT_WIDTH_3 : list Z := [10; 15; 22; 4; 1].
Definition BIT_WIDTH_2 : list Z := [10; 22; 4; 1].
Definition BIT_WIDTH_1 : list Z := [10; 15].

(** sub_decoders/RTCM_MSM.py:99-102 [get_msg_num] (None when the buffer is too short) *)
Definition get_msg_num (buf : list Z) : res (option Z) := catch_bits (getbitu buf 24 12).

(** sub_decoders/RTCM_MSM.py:104-156 [__extract_hdr]; returns the filled header and the new
    offset.  [cell_mask] stays 0 (its cleared value) when there are no satellites. *)
Definition extract_hdr (buf : list Z) (offset : Z) : res (bare_hdr * Z) :=
  len <- getbitu buf 14 10 ;;
  let bits_elapsed := (len - 3) * 8 in
  if bits_elapsed <? MIN_HDR_LEN then Err EBareData else
  msg_num <- getbitu buf offset 12 ;; let offset := offset + 12 in
  rs_id <- getbitu buf offset 12 ;; let offset := offset + 12 in
  time <- getbitu buf offset 30 ;; let offset := offset + 30 in
  mmb <- getbitu buf offset 1 ;; let offset := offset + 1 in
  iods <- getbitu buf offset 3 ;; let offset := offset + (3 + 7) in
  clk_steer <- getbitu buf offset 2 ;; let offset := offset + 2 in
  clk_ext <- getbitu buf offset 2 ;; let offset := offset + 2 in
  smth_indc <- getbitu buf offset 1 ;; let offset := offset + 1 in
  smth_intr <- getbitu buf offset 3 ;; let offset := offset + 3 in
  sat_mask <- getbitu buf offset 64 ;; let offset := offset + 64 in
  sat_mask <- revbitu sat_mask 64 0 ;;
  sgn_mask <- getbitu buf offset 32 ;; let offset := offset + 32 in
  sgn_mask <- revbitu sgn_mask 32 0 ;;
  let mk cell := {| h_rs_id := rs_id; h_time := time; h_MMB := mmb; h_IODS := iods;
                    h_clk_steer := clk_steer; h_clk_ext := clk_ext;
                    h_smth_indc := smth_indc; h_smth_intr := smth_intr;
                    h_sat_mask := sat_mask; h_sgn_mask := sgn_mask; h_cell_mask := cell |} in
  let Nsat := bit_count sat_mask in
  let Nsgn := bit_count sgn_mask in
  if Nsat =? 0 then
    let Nbytes := Z.shiftr (offset + 7) 3 in
    if negb (zlen buf =? Nbytes + 3) then Err EBareData else Ok (mk 0, offset)
  else
    let cell_bits := Nsat * Nsgn in
    let bits_elapsed := bits_elapsed - MIN_HDR_LEN in
    if 64 <? cell_bits then Err EBareData
    else if bits_elapsed <? cell_bits then Err EBareData
    else
      cell_mask <- getbitu buf offset cell_bits ;; let offset := offset + cell_bits in
      cell_mask <- revbitu cell_mask cell_bits 0 ;;
      Ok (mk cell_mask, offset).

(** [bits = next(bw)] on the width generator (StopIteration when exhausted).
    (sub_decoders/RTCM_MSM.py:188-327, [next(bw)]) *)
Definition next_bw (bw : list Z) : res (Z * list Z) :=
  match bw with w :: r => Ok (w, r) | [] => Err EStop end.

(** The repeated idiom [tuple(self.getbitu(buf, offset + i*bits, bits) for i in
    range(0,N))], e.g. sub_decoders/RTCM_MSM.py:189-191, and its signed variant, e.g.
    209-211. *)
Definition column_u (buf : list Z) (offset bits n : Z) : res (list Z) :=
  map_res (fun i => getbitu buf (offset + i * bits) bits) (zrange 0 n).
Definition column_s (buf : list Z) (offset bits n : Z) : res (list Z) :=
  map_res (fun i => getbits buf (offset + i * bits) bits) (zrange 0 n).

(** gnss_types/observables.py: a cleared column is [(int(),)] = (0,). *)
Definition cleared : list Z := [0].

(** sub_decoders/RTCM_MSM.py:158-259 [__extract_observables4567] *)
Definition extract_observables4567 (buf : list Z) (a : attributes) (h : bare_hdr) (offset : Z)
  : res (bare_sat4567 * bare_sgn4567) :=
  let Nsat := bit_count (h_sat_mask h) in
  let Nsgn := bit_count (h_sgn_mask h) in
  let Ncell := bit_count (h_cell_mask h) in
  if (Nsat =? 0) || (Nsgn =? 0) || (Ncell =? 0) then Err EBareData else
  let '(est_len, bw) :=
    if is_msm7 a then (Z.shiftr (offset + 36 * Nsat + 80 * Ncell + 7) 3 + 3, BIT_WIDTH_7)
    else if is_msm6 a then (Z.shiftr (offset + 18 * Nsat + 65 * Ncell + 7) 3 + 3, BIT_WIDTH_6)
    else if is_msm5 a then (Z.shiftr (offset + 36 * Nsat + 63 * Ncell + 7) 3 + 3, BIT_WIDTH_5)
    else (Z.shiftr (offset + 18 * Nsat + 48 * Ncell + 7) 3 + 3, BIT_WIDTH_4) in
  if negb (est_len =? zlen buf) then Err EBareData else
  (* satellite data *)
  '(bits, bw) <- next_bw bw ;;
  rng_ms <- column_u buf offset bits Nsat ;; let offset := offset + bits * Nsat in
  '(ext_info, bw, offset) <-
    (if is_msm5 a || is_msm7 a then
       '(bits, bw) <- next_bw bw ;;
       c <- column_u buf offset bits Nsat ;; Ok (c, bw, offset + bits * Nsat)
     else Ok (cleared, bw, offset)) ;;
  '(bits, bw) <- next_bw bw ;;
  rng_rough <- column_u buf offset bits Nsat ;; let offset := offset + bits * Nsat in
  '(phase_rate_rough, bw, offset) <-
    (if is_msm5 a || is_msm7 a then
       '(bits, bw) <- next_bw bw ;;
       c <- column_s buf offset bits Nsat ;; Ok (c, bw, offset + bits * Nsat)
     else Ok (cleared, bw, offset)) ;;
  (* signal data *)
  '(bits, bw) <- next_bw bw ;;
  rng_fine <- column_s buf offset bits Ncell ;; let offset := offset + bits * Ncell in
  '(bits, bw) <- next_bw bw ;;
  phase_fine <- column_s buf offset bits Ncell ;; let offset := offset + bits * Ncell in
  '(bits, bw) <- next_bw bw ;;
  lock_time <- column_u buf offset bits Ncell ;; let offset := offset + bits * Ncell in
  '(bits, bw) <- next_bw bw ;;
  hc_indc <- column_u buf offset bits Ncell ;; let offset := offset + bits * Ncell in
  '(bits, bw) <- next_bw bw ;;
  c2n <- column_u buf offset bits Ncell ;; let offset := offset + bits * Ncell in
  '(phase_rate_fine, bw, offset) <-
    (if is_msm5 a || is_msm7 a then
       '(bits, bw) <- next_bw bw ;;
       c <- column_s buf offset bits Ncell ;; Ok (c, bw, offset + bits * Ncell)
     else Ok (cleared, bw, offset)) ;;
  let Nbytes := Z.shiftr (offset + 7) 3 in
  if negb (zlen buf =? Nbytes + 3) then Err EBareData else
  Ok ({| sat_rng_ms := rng_ms; sat_ext_info := ext_info; sat_rng_rough := rng_rough;
         sat_phase_rate_rough := phase_rate_rough |},
      {| sgn_rng_fine := rng_fine; sgn_phase_fine := phase_fine; sgn_lock_time := lock_time;
         sgn_hc_indc := hc_indc; sgn_c2n := c2n; sgn_phase_rate_fine := phase_rate_fine |}).

(** sub_decoders/RTCM_MSM.py:261-340 [__extract_observables123] *)
Definition extract_observables123 (buf : list Z) (a : attributes) (h : bare_hdr) (offset : Z)
  : res (bare_sat123 * bare_sgn123) :=
  let Nsat := bit_count (h_sat_mask h) in
  let Nsgn := bit_count (h_sgn_mask h) in
  let Ncell := bit_count (h_cell_mask h) in
  if (Nsat =? 0) || (Nsgn =? 0) || (Ncell =? 0) then Err EBareData else
  let '(est_len, bw) :=
    if is_msm1 a then (Z.shiftr (offset + 10 * Nsat + 15 * Ncell + 7) 3 + 3, BIT_WIDTH_1)
    else if is_msm2 a then (Z.shiftr (offset + 10 * Nsat + 28 * Ncell + 7) 3 + 3, BIT_WIDTH_2)
    else if is_msm3 a then (Z.shiftr (offset + 10 * Nsat + 43 * Ncell + 7) 3 + 3, BIT_WIDTH_3)
    else (0, BIT_WIDTH_3) in
  if negb (est_len =? zlen buf) then Err EBareData else
  (* satellite data *)
  '(bits, bw) <- next_bw bw ;;
  rng_rough <- column_u buf offset bits Nsat ;; let offset := offset + bits * Nsat in
  (* signal data *)
  '(g, offset) <-
    (if is_msm1 a then
       '(bits, bw) <- next_bw bw ;;
       rng_fine <- column_s buf offset bits Ncell ;; let offset := offset + bits * Ncell in
       Ok ({| sgn1_rng_fine := rng_fine; sgn1_phase_fine := cleared;
              sgn1_lock_time := cleared; sgn1_hc_indc := cleared |}, offset)
     else
       '(rng_fine, bw, offset) <-
         (if is_msm3 a then
            '(bits, bw) <- next_bw bw ;;
            c <- column_s buf offset bits Ncell ;; Ok (c, bw, offset + bits * Ncell)
          else Ok (cleared, bw, offset)) ;;
       '(bits, bw) <- next_bw bw ;;
       phase_fine <- column_s buf offset bits Ncell ;; let offset := offset + bits * Ncell in
       '(bits, bw) <- next_bw bw ;;
       lock_time <- column_u buf offset bits Ncell ;; let offset := offset + bits * Ncell in
       '(bits, bw) <- next_bw bw ;;
       hc_indc <- column_u buf offset bits Ncell ;; let offset := offset + bits * Ncell in
       Ok ({| sgn1_rng_fine := rng_fine; sgn1_phase_fine := phase_fine;
              sgn1_lock_time := lock_time; sgn1_hc_indc := hc_indc |}, offset)) ;;
  let Nbytes := Z.shiftr (offset + 7) 3 in
  if negb (zlen buf =? Nbytes + 3) then Err EBareData else
  Ok ({| sat1_rng_rough := rng_rough |}, g).

(** sub_decoders/RTCM_MSM.py:64-97 [BareObservablesMSM17Decoder.decode]: the completely
    filled object, or the exception.  A None message number makes [num < 1071] raise
    TypeError (utilities/RTCM_utilities.py:407). *)
Definition bare_decode (buf : list Z) : res bare_msm :=
  num <- get_msg_num buf ;;
  match num with
  | None => Err EType
  | Some num =>
    let '(gnss, subset) := msm_subset num in
    let a := {| a_gnss := gnss; a_subset := subset; a_msg_number := num |} in
    let cleared4567 := ({| sat_rng_ms := cleared; sat_ext_info := cleared;
        sat_rng_rough := cleared; sat_phase_rate_rough := cleared |},
       {| sgn_rng_fine := cleared; sgn_phase_fine := cleared; sgn_lock_time := cleared;
          sgn_hc_indc := cleared; sgn_c2n := cleared; sgn_phase_rate_fine := cleared |}) in
    let cleared123 := ({| sat1_rng_rough := cleared |},
       {| sgn1_rng_fine := cleared; sgn1_phase_fine := cleared; sgn1_lock_time := cleared;
          sgn1_hc_indc := cleared |}) in
    if is_msm1 a || is_msm2 a || is_msm3 a then
      '(h, offset) <- extract_hdr buf 24 ;;
      if h_sat_mask h =? 0 then Ok (Bare123 a h (fst cleared123) (snd cleared123))
      else '(s, g) <- extract_observables123 buf a h offset ;; Ok (Bare123 a h s g)
    else if is_msm4 a || is_msm5 a || is_msm6 a || is_msm7 a then
      '(h, offset) <- extract_hdr buf 24 ;;
      if h_sat_mask h =? 0 then Ok (Bare4567 a h (fst cleared4567) (snd cleared4567))
      else '(s, g) <- extract_observables4567 buf a h offset ;; Ok (Bare4567 a h s g)
    else Err EBareData
  end.

(** ** Scaler *)

(** gnss_types/observables.py:113-142 [_ObservablesObs]: six dictionaries
    signal -> satellite -> value. *)
Definition obs_dict (V : Type) := list (string * list (Z * V)).
Record obs := {
  o_rng : obs_dict flt; o_phs : obs_dict flt; o_ltm : obs_dict Z; o_hca : obs_dict bool;
  o_dpl : obs_dict flt; o_c2n : obs_dict flt }.
Definition obs_empty : obs :=
  {| o_rng := []; o_phs := []; o_ltm := []; o_hca := []; o_dpl := []; o_c2n := [] |}.

(** gnss_types/observables.py:161-188 [_ObservablesAuxMSM]; the four dictionaries
    {"code": c, "val": s} are pairs. *)
Record aux_msm := {
  x_rs_id : Z; x_MMB : Z; x_IODS : Z; x_clk_steer : Z * string; x_clk_ext : Z * string;
  x_smth_indc : Z * string; x_smth_intr : Z * string }.

(** gnss_types/observables.py:90-104 [_ObservablesHdrMSM] *)
Record hdr_msm := {
  d_signals : list (string * flt); d_sats : list Z; d_time : Z; d_day : Z }.

(** gnss_types/observables.py:23-33 [ObservablesMSM] *)
Record observables := { ob_obs : obs; ob_hdr : hdr_msm; ob_aux : aux_msm; ob_atr : attributes }.

(** sub_decoders/RTCM_MSM.py:349-375 [__SCALERS67], [__SCALERS45], [__CHECKERS67],
    [__CHECKERS45].  The int scaler 1 of C/N0 in MSM4/5 multiplies a float, i.e. acts as
    1.0. *)
Record scalers := { sc_rng : flt; sc_phs : flt; sc_dpl : flt; sc_ltm : Z -> Z; sc_c2n : flt }.
Definition SCALERS67 : scalers :=
  {| sc_rng := f_pow2 (-29); sc_phs := f_pow2 (-31); sc_dpl := dec_lit 1 4;
     sc_ltm := unpack_tlock10; sc_c2n := dec_lit 625 4 |}.
Definition SCALERS45 : scalers :=
  {| sc_rng := f_pow2 (-24); sc_phs := f_pow2 (-29); sc_dpl := dec_lit 1 4;
     sc_ltm := unpack_tlock4; sc_c2n := f_of_int 1 |}.
Record checkers := { ck_rng : Z -> bool; ck_phs : Z -> bool; ck_dpl : Z -> bool }.
Definition CHECKERS67 : checkers :=
  {| ck_rng := isDF405_OK; ck_phs := isDF406_OK; ck_dpl := isDF404_OK |}.
Definition CHECKERS45 : checkers :=
  {| ck_rng := isDF400_OK; ck_phs := isDF401_OK; ck_dpl := isDF404_OK |}.

(** [rv.obs.X[sgn].update({sat: tmp})]; sub_decoders/RTCM_MSM.py:520-566, 623-655 *)
Definition obs_put {V} (d : obs_dict V) (sgn : string) (sat : Z) (v : V) : res (obs_dict V) :=
  inner <- sindex d sgn ;; Ok (sset d sgn (zset inner sat v)).

(** [for sgn in self.sgn_map: rv.obs.X.update({sgn: {}})] for one dictionary, e.g.
    sub_decoders/RTCM_MSM.py:459-460. *)
Definition obs_slots {V} (sgn_map : list string) : obs_dict V :=
  fold_left (fun d s => sset d s []) sgn_map [].

(** [for sgn in self.sgn_map: if 0 == len(rv.obs.X[sgn]): del rv.obs.X[sgn]] for one
    dictionary, e.g. sub_decoders/RTCM_MSM.py:571-573. *)
Definition obs_prune {V} (sgn_map : list string) (d : obs_dict V) : res (obs_dict V) :=
  for_each sgn_map d
    (fun d s => inner <- sindex d s ;; match inner with [] => sdel d s | _ => Ok d end).

(** sub_decoders/RTCM_MSM.py:507-567: the loop over the signals of one satellite.  [slots]
    loses one bit per iteration; [fuel] bounds the number of iterations.  The state is the
    observables, the running cell index [sgn_idx] and the signal index [i]. *)
Fixpoint cells47 (fuel : nat) (sgn_map : list string) (src_g : bare_sgn4567)
    (sc : scalers) (ck : checkers) (sat : Z) (rng_ok : bool) (rng : flt)
    (phase_rate_ok : bool) (phase_rate : flt)
    (slots i sgn_idx : Z) (o : obs) : res (obs * Z) :=
  if slots =? 0 then Ok (o, sgn_idx) else
  match fuel with
  | O => Err EFuel
  | S fuel =>
    sgn <- py_index sgn_map i ;;
    let i := i + 1 in
    let slotExist := Z.land slots 0x01 in
    let slots := Z.shiftr slots 1 in
    if slotExist =? 0 then
      cells47 fuel sgn_map src_g sc ck sat rng_ok rng phase_rate_ok phase_rate slots i sgn_idx o
    else
      o_rng' <-
        (if rng_ok then
           f <- py_index (sgn_rng_fine src_g) sgn_idx ;;
           if ck_rng ck f
           then obs_put (o_rng o) sgn sat
                  (f_mul (f_add rng (f_mul (f_of_int f) (sc_rng sc))) CRNG_1MS)
           else Ok (o_rng o)
         else Ok (o_rng o)) ;;
      o_phs' <-
        (if rng_ok then
           f <- py_index (sgn_phase_fine src_g) sgn_idx ;;
           if ck_phs ck f
           then obs_put (o_phs o) sgn sat
                  (f_mul (f_add rng (f_mul (f_of_int f) (sc_phs sc))) CRNG_1MS)
           else Ok (o_phs o)
         else Ok (o_phs o)) ;;
      o_dpl' <-
        (if phase_rate_ok then
           f <- py_index (sgn_phase_rate_fine src_g) sgn_idx ;;
           if ck_dpl ck f
           then obs_put (o_dpl o) sgn sat (f_add phase_rate (f_mul (f_of_int f) (sc_dpl sc)))
           else Ok (o_dpl o)
         else Ok (o_dpl o)) ;;
      l <- py_index (sgn_lock_time src_g) sgn_idx ;;
      o_ltm' <- obs_put (o_ltm o) sgn sat (sc_ltm sc l) ;;
      c <- py_index (sgn_c2n src_g) sgn_idx ;;
      o_c2n' <- obs_put (o_c2n o) sgn sat (f_mul (f_of_int c) (sc_c2n sc)) ;;
      hc <- py_index (sgn_hc_indc src_g) sgn_idx ;;
      o_hca' <- obs_put (o_hca o) sgn sat (negb (hc =? 0)) ;;
      cells47 fuel sgn_map src_g sc ck sat rng_ok rng phase_rate_ok phase_rate slots i
        (sgn_idx + 1)
        {| o_rng := o_rng'; o_phs := o_phs'; o_ltm := o_ltm'; o_hca := o_hca';
           o_dpl := o_dpl'; o_c2n := o_c2n' |}
  end.

(** Iterations needed to shift [slots] down to zero.
    (bound for the loops of sub_decoders/RTCM_MSM.py:507, 613) *)
Definition slot_fuel (slots : Z) : nat := Z.to_nat (Z.log2 slots + 1).

(** sub_decoders/RTCM_MSM.py:447-583 [_convert_obs47] *)
Definition convert_obs47 (a : attributes) (src_s : bare_sat4567) (src_g : bare_sgn4567)
    (sgn_map : list string) (sat_list slots_per_sat : list Z) : res obs :=
  let '(sc, ck) := if is_msm7 a || is_msm6 a then (SCALERS67, CHECKERS67)
                   else (SCALERS45, CHECKERS45) in
  let o := {| o_rng := obs_slots sgn_map; o_phs := obs_slots sgn_map;
              o_ltm := obs_slots sgn_map; o_hca := obs_slots sgn_map;
              o_dpl := obs_slots sgn_map; o_c2n := obs_slots sgn_map |} in
  '(o, _, _) <- for_each slots_per_sat (o, 0, 0)
    (fun '(o, sat_idx, sgn_idx) slots =>
       sat <- py_index sat_list sat_idx ;;
       ms <- py_index (sat_rng_ms src_s) sat_idx ;;
       let rng_ok := negb (ms =? 255) in
       rng <- (if rng_ok then
                 rough <- py_index (sat_rng_rough src_s) sat_idx ;;
                 Ok (f_div (f_of_int (Z.shiftl ms 10 + rough)) (f_of_int 1024))
               else Ok (f_of_int 0)) ;;
       '(phase_rate_ok, phase_rate) <-
         (if is_msm7 a || is_msm5 a then
            r <- py_index (sat_phase_rate_rough src_s) sat_idx ;;
            if negb (Z.land r 0x3FFF =? 0x2000) then Ok (true, f_of_int r)
            else Ok (false, f_of_int 0)
          else Ok (false, f_of_int 0)) ;;
       '(o, sgn_idx) <- cells47 (slot_fuel slots) sgn_map src_g sc ck sat rng_ok rng
                          phase_rate_ok phase_rate slots 0 sgn_idx o ;;
       Ok (o, sat_idx + 1, sgn_idx)) ;;
  dpl <- obs_prune sgn_map (o_dpl o) ;;
  rng <- obs_prune sgn_map (o_rng o) ;;
  c2n <- obs_prune sgn_map (o_c2n o) ;;
  phs <- obs_prune sgn_map (o_phs o) ;;
  ltm <- obs_prune sgn_map (o_ltm o) ;;
  hca <- obs_prune sgn_map (o_hca o) ;;
  Ok {| o_rng := rng; o_phs := phs; o_ltm := ltm; o_hca := hca; o_dpl := dpl; o_c2n := c2n |}.

(** sub_decoders/RTCM_MSM.py:613-657: the loop over the signals of one satellite.  [ph_ok]
    is loop state: it is set to False by a cell without a fine range (line 635) and never
    set back. *)
Fixpoint cells13 (fuel : nat) (sgn_map : list string) (src_g : bare_sgn123)
    (sat : Z) (rng_ok : bool) (rng : flt) (ph_ok : bool)
    (slots i sgn_idx : Z) (o : obs) : res (obs * Z) :=
  if slots =? 0 then Ok (o, sgn_idx) else
  match fuel with
  | O => Err EFuel
  | S fuel =>
    sgn <- py_index sgn_map i ;;
    let i := i + 1 in
    let slotExist := Z.land slots 0x01 in
    let slots := Z.shiftr slots 1 in
    if slotExist =? 0 then
      cells13 fuel sgn_map src_g sat rng_ok rng ph_ok slots i sgn_idx o
    else
      '(o_rng', ph_ok) <-
        (if rng_ok then
           f <- py_index (sgn1_rng_fine src_g) sgn_idx ;;
           if negb (Z.land f 0x7FFF =? 0x4000)
           then d <- obs_put (o_rng o) sgn sat
                  (f_mul (f_add rng (f_mul (f_of_int f) (sc_rng SCALERS45))) CRNG_1MS) ;;
                Ok (d, ph_ok)
           else Ok (o_rng o, false)
         else Ok (o_rng o, ph_ok)) ;;
      '(o_phs', o_ltm', o_hca') <-
        (if ph_ok then
           f <- py_index (sgn1_phase_fine src_g) sgn_idx ;;
           if Z.land f 0x3FFFFF =? 0x200000 then Ok (o_phs o, o_ltm o, o_hca o)
           else
             phs <- obs_put (o_phs o) sgn sat
                  (f_mul (f_add rng (f_mul (f_of_int f) (sc_phs SCALERS45))) CRNG_1MS) ;;
             l <- py_index (sgn1_lock_time src_g) sgn_idx ;;
             ltm <- obs_put (o_ltm o) sgn sat (sc_ltm SCALERS45 l) ;;
             hc <- py_index (sgn1_hc_indc src_g) sgn_idx ;;
             hca <- obs_put (o_hca o) sgn sat (negb (hc =? 0)) ;;
             Ok (phs, ltm, hca)
         else Ok (o_phs o, o_ltm o, o_hca o)) ;;
      cells13 fuel sgn_map src_g sat rng_ok rng ph_ok slots i (sgn_idx + 1)
        {| o_rng := o_rng'; o_phs := o_phs'; o_ltm := o_ltm'; o_hca := o_hca';
           o_dpl := o_dpl o; o_c2n := o_c2n o |}
  end.

(** sub_decoders/RTCM_MSM.py:585-669 [_convert_obs13] *)
Definition convert_obs13 (a : attributes) (src_s : bare_sat123) (src_g : bare_sgn123)
    (sgn_map : list string) (sat_list slots_per_sat : list Z) : res obs :=
  let o := {| o_rng := obs_slots sgn_map; o_phs := obs_slots sgn_map;
              o_ltm := obs_slots sgn_map; o_hca := obs_slots sgn_map;
              o_dpl := []; o_c2n := [] |} in
  '(o, _, _) <- for_each slots_per_sat (o, 0, 0)
    (fun '(o, sat_idx, sgn_idx) slots =>
       sat <- py_index sat_list sat_idx ;;
       rough <- py_index (sat1_rng_rough src_s) sat_idx ;;
       let rng := f_div (f_of_int rough) (f_of_int 1024) in
       let rng_ok := is_msm1 a || is_msm3 a in
       let ph_ok := is_msm2 a || is_msm3 a in
       '(o, sgn_idx) <- cells13 (slot_fuel slots) sgn_map src_g sat rng_ok rng ph_ok
                          slots 0 sgn_idx o ;;
       Ok (o, sat_idx + 1, sgn_idx)) ;;
  rng <- obs_prune sgn_map (o_rng o) ;;
  phs <- obs_prune sgn_map (o_phs o) ;;
  ltm <- obs_prune sgn_map (o_ltm o) ;;
  hca <- obs_prune sgn_map (o_hca o) ;;
  Ok {| o_rng := rng; o_phs := phs; o_ltm := ltm; o_hca := hca;
        o_dpl := o_dpl o; o_c2n := o_c2n o |}.

(** sub_decoders/RTCM_MSM.py:419-421, 425-427: numbers of the set bits, 1-based. *)
Definition mask_members (mask n : Z) : list Z :=
  map (fun i => i + 1) (filter (fun i => negb (Z.land mask (Z.shiftl 1 i) =? 0)) (zrange 0 n)).

(** sub_decoders/RTCM_MSM.py:382-445 [Bare2Scaled.convert] ([None] is the Python None).
    Line 431 builds the signal dictionary and raises KeyError on an unknown signal before
    any None key can be used further, so [sgn_map] is a list of strings afterwards. *)
Definition convert (src : option bare_msm) : res (option observables) :=
  match src with
  | None => Ok None
  | Some src =>
    let a := bare_atr src in
    let h := bare_header src in
    if String.eqb (a_gnss a) "" then Ok None else
    let aux := {| x_rs_id := h_rs_id h; x_MMB := h_MMB h; x_IODS := h_IODS h;
       x_clk_steer := (h_clk_steer h, unpack_clk_steer (h_clk_steer h));
       x_clk_ext := (h_clk_ext h, unpack_clk_ext (h_clk_ext h));
       x_smth_indc := (h_smth_indc h, unpack_smth_indc (h_smth_indc h));
       x_smth_intr := (h_smth_intr h, unpack_smth_intr (h_smth_intr h)) |} in
    if h_sat_mask h =? 0 then
      Ok (Some {| ob_obs := obs_empty;
                  ob_hdr := {| d_signals := []; d_sats := []; d_time := bare_time src;
                               d_day := bare_day src |};
                  ob_aux := aux; ob_atr := a |})
    else
      let sat_list := mask_members (h_sat_mask h) 64 in
      let sat_num := zlen sat_list in
      let lits := map (rnx_lit (a_gnss a)) (mask_members (h_sgn_mask h) 32) in
      sgns <- map_res (fun s => f <- crr_frq (a_gnss a) s ;;
                                match s with Some s => Ok (s, f) | None => Err EKey end) lits ;;
      let sgn_map := map fst sgns in
      let signals := fold_left (fun d sf => sset d (fst sf) (snd sf)) sgns [] in
      let M := bit_count (h_sgn_mask h) in
      let mask := Z.shiftl 1 M - 1 in
      let slots_per_sat :=
        map (fun i => Z.land (Z.shiftr (h_cell_mask h) (M * i)) mask) (zrange 0 sat_num) in
      o <- (match src with
            | Bare4567 a _ s g => convert_obs47 a s g sgn_map sat_list slots_per_sat
            | Bare123 a _ s g => convert_obs13 a s g sgn_map sat_list slots_per_sat
            end) ;;
      Ok (Some {| ob_obs := o;
                  ob_hdr := {| d_signals := signals; d_sats := sat_list;
                               d_time := bare_time src; d_day := bare_day src |};
                  ob_aux := aux; ob_atr := a |})
  end.

(** What an MSM sub-decoder can return besides None.
    (sub_decoders/RTCM_MSM.py:675-728, the two kinds of results) *)
Inductive msm_result := MsmBare (b : bare_msm) | MsmScaled (o : observables).

(** sub_decoders/RTCM_MSM.py:675-728 [decode_msm17].  Every Exception raised by [decode] or
    [convert] is caught and logged. *)
Definition decode_msm17 (is_bare_output : bool) (buf : list Z) : res (option msm_result) :=
  match bare_decode buf with
  | Err e => if is_exception e then Ok None else Err e
  | Ok b =>
    if is_bare_output then Ok (Some (MsmBare b))
    else match convert (Some b) with
         | Ok r => Ok (option_map MsmScaled r)
         | Err e => if is_exception e then Ok None else Err e
         end
  end.
