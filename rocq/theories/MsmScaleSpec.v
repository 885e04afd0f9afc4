(** * MsmScaleSpec: what the scaled (physical units) form of an MSM message must contain.

    Uses only the message data of [MsmSpec], binary64 arithmetic ([PyFloat]) and the record
    types of the returned objects. *)
From Coq Require Import Ascii.
From Verif Require Import PyBase PyDict PyFloat MsmModel MsmSpec.
Local Open Scope string_scope.
Local Open Scope list_scope.
Local Open Scope Z_scope.

(** ** Signals (RTCM 10403 MSM signal identifiers and their RINEX codes) *)
Definition signal_codes (g : gnss) : list (Z * string) :=
  match g with
  | GPS => [(2,"1C"); (3,"1P"); (4,"1W"); (8,"2C"); (9,"2P"); (10,"2W"); (15,"2S"); (16,"2L");
            (17,"2X"); (22,"5I"); (23,"5Q"); (24,"5X"); (30,"1S"); (31,"1L"); (32,"1X")]
  | GLO => [(2,"1C"); (3,"1P"); (8,"2C"); (9,"2P")]
  | GAL => [(2,"1C"); (3,"1A"); (4,"1B"); (5,"1X"); (6,"1Z"); (8,"6C"); (9,"6A"); (10,"6B");
            (11,"6X"); (12,"6Z"); (14,"7I"); (15,"7Q"); (16,"7X"); (18,"8I"); (19,"8Q");
            (20,"8X"); (22,"5I"); (23,"5Q"); (24,"5X")]
  | SBAS => [(2,"1C"); (22,"5I"); (23,"5Q"); (24,"5X")]
  | QZSS => [(2,"1C"); (9,"6S"); (10,"6L"); (11,"6X"); (15,"2S"); (16,"2L"); (17,"2X");
             (22,"5I"); (23,"5Q"); (24,"5X"); (30,"1S"); (31,"1L"); (32,"1X")]
  | BDS => [(2,"2I"); (3,"2Q"); (4,"2X"); (8,"6I"); (9,"6Q"); (10,"6X"); (14,"7I"); (15,"7Q");
            (16,"7X")]
  | NAVIC => [(8,"9A"); (22,"5A")]
  end.

Definition signal_code (g : gnss) (k : Z) : option string :=
  match find (fun p => fst p =? k) (signal_codes g) with Some p => Some (snd p) | None => None end.

(** Nominal carrier frequency in MHz (decimal mantissa, number of decimals), by RINEX band. *)
Definition band_mhz (g : gnss) (band : ascii) : Z * Z :=
  match g, band with
  | GLO, "1"%char => (1602, 0)
  | GLO, _ => (1246, 0)
  | BDS, "2"%char => (1561098, 3)
  | BDS, "6"%char => (126852, 2)
  | BDS, _ => (120714, 2)
  | GAL, "6"%char | QZSS, "6"%char => (127875, 2)
  | GAL, "7"%char => (120714, 2)
  | GAL, "8"%char => (1191795, 3)
  | NAVIC, "9"%char => (2492028, 3)
  | _, "1"%char => (157542, 2)
  | _, "2"%char => (12276, 1)
  | _, _ => (117645, 2)
  end.
Definition carrier (g : gnss) (code : string) : flt :=
  match code with
  | String band _ => dec_lit (fst (band_mhz g band)) (snd (band_mhz g band))
  | EmptyString => f_of_int 0
  end.

(** ** Values *)

(** The most negative value of a signed field marks "not available". *)
Definition marks_invalid (w : Z) (v : Z) : bool := v =? - 2 ^ (w - 1).

Definition extended (t : msm_type) : bool := match t with MSM6 | MSM7 => true | _ => false end.

(** Rough range in milliseconds. *)
Definition rough_ms (t : msm_type) (s : sat_data) : option flt :=
  match t with
  | MSM1 | MSM2 | MSM3 => Some (f_div (f_of_int (sd_rough s)) (f_of_int 1024))
  | _ => if sd_ms s =? 255 then None
         else Some (f_div (f_of_int (sd_ms s * 1024 + sd_rough s)) (f_of_int 1024))
  end.

(** Metres: (rough + fine * resolution) * 299792.458. *)
Definition metres (rough : flt) (fine : Z) (res : flt) : flt :=
  f_mul (f_add rough (f_mul (f_of_int fine) res)) (dec_lit 299792458 3).

Definition has_range (t : msm_type) : bool := match t with MSM2 => false | _ => true end.
Definition has_phase (t : msm_type) : bool := match t with MSM1 => false | _ => true end.
Definition has_rate (t : msm_type) : bool := match t with MSM5 | MSM7 => true | _ => false end.
Definition has_cnr (t : msm_type) : bool :=
  match t with MSM1 | MSM2 | MSM3 => false | _ => true end.

Definition range_invalid (t : msm_type) (c : cell_data) : bool :=
  marks_invalid (if extended t then 20 else 15) (cd_rng c).
Definition phase_invalid (t : msm_type) (c : cell_data) : bool :=
  marks_invalid (if extended t then 24 else 22) (cd_phs c).

Definition code_range (t : msm_type) (s : sat_data) (c : cell_data) : option flt :=
  match rough_ms t s with
  | Some r => if has_range t && negb (range_invalid t c)
              then Some (metres r (cd_rng c) (f_pow2 (if extended t then -29 else -24))) else None
  | None => None
  end.

Definition phase_range (t : msm_type) (s : sat_data) (c : cell_data) : option flt :=
  match rough_ms t s with
  | Some r => if has_phase t && negb (phase_invalid t c)
              then Some (metres r (cd_phs c) (f_pow2 (if extended t then -31 else -29))) else None
  | None => None
  end.

Definition phase_rate (t : msm_type) (s : sat_data) (c : cell_data) : option flt :=
  if has_rate t && negb (marks_invalid 14 (sd_rate s)) && negb (marks_invalid 15 (cd_rate c))
  then Some (f_add (f_of_int (sd_rate s)) (f_mul (f_of_int (cd_rate c)) (dec_lit 1 4))) else None.

(** Minimum lock time in milliseconds: DF402 (4 bits) and DF407 (10 bits). *)
Definition df402_ms (i : Z) : Z := if i =? 0 then 0 else 2 ^ (i + 4).
Definition df407_blocks : list (Z * Z * Z) :=   (* first indicator, factor, offset *)
  [(64, 2, 64); (96, 4, 256); (128, 8, 768); (160, 16, 2048); (192, 32, 5120);
   (224, 64, 12288); (256, 128, 28672); (288, 256, 65536); (320, 512, 147456);
   (352, 1024, 327680); (384, 2048, 720896); (416, 4096, 1572864); (448, 8192, 3407872);
   (480, 16384, 7340032); (512, 32768, 15728640); (544, 65536, 33554432);
   (576, 131072, 71303168); (608, 262144, 150994944); (640, 524288, 318767104);
   (672, 1048576, 671088640)].
Definition df407_ms (i : Z) : Z :=
  if i <? 64 then i
  else match find (fun '(lo, _, _) => (lo <=? i) && (i <? lo + 32)) df407_blocks with
       | Some (_, k, d) => k * i - d
       | None => if i =? 704 then 67108864 else 0
       end.
Definition lock_ms (t : msm_type) (i : Z) : Z := if extended t then df407_ms i else df402_ms i.

Definition cnr_dbhz (t : msm_type) (c : cell_data) : flt :=
  f_mul (f_of_int (cd_cnr c)) (if extended t then f_pow2 (-4) else f_of_int 1).

(** ** What the decoder reports for one cell, given the cells of the same satellite that
    precede it in signal order.

    Only the phase-related observables of MSM3 depend on the preceding cells: they are
    dropped when the cell itself or any preceding cell of that satellite has an invalid
    fine range. *)
Definition blocked (t : msm_type) (before : list (option cell_data)) (c : cell_data) : bool :=
  match t with MSM3 => existsb (range_invalid t) (row_cells before ++ [c]) | _ => false end.

Definition rep_rng (t : msm_type) (s : sat_data) (before : list (option cell_data)) (c : cell_data)
  : option flt := code_range t s c.
Definition rep_phs (t : msm_type) (s : sat_data) (before : list (option cell_data)) (c : cell_data)
  : option flt := if blocked t before c then None else phase_range t s c.
Definition rep_ltm (t : msm_type) (s : sat_data) (before : list (option cell_data)) (c : cell_data)
  : option Z :=
  if has_cnr t then Some (lock_ms t (cd_lock c))
  else match rep_phs t s before c with Some _ => Some (lock_ms t (cd_lock c)) | None => None end.
Definition rep_hca (t : msm_type) (s : sat_data) (before : list (option cell_data)) (c : cell_data)
  : option bool :=
  if has_cnr t then Some (negb (cd_half c =? 0))
  else match rep_phs t s before c with Some _ => Some (negb (cd_half c =? 0)) | None => None end.
Definition rep_dpl (t : msm_type) (s : sat_data) (before : list (option cell_data)) (c : cell_data)
  : option flt := phase_rate t s c.
Definition rep_c2n (t : msm_type) (s : sat_data) (before : list (option cell_data)) (c : cell_data)
  : option flt := if has_cnr t then Some (cnr_dbhz t c) else None.

(** ** The dictionaries signal -> satellite -> value *)
Section Table.
Context {V : Type} (val : sat_data -> list (option cell_data) -> cell_data -> option V).
(** Entries of the signal with index [j] in the message's signal list. *)
Definition signal_entries (rows : list (sat_data * list (option cell_data))) (j : nat)
  : list (Z * V) :=
  flat_map (fun '(s, row) =>
    match nth j row None with
    | Some c => match val s (firstn j row) c with Some v => [(sd_id s, v)] | None => [] end
    | None => []
    end) rows.
(** Signals without any entry do not appear. *)
Definition table (codes : list string) (rows : list (sat_data * list (option cell_data)))
  : obs_dict V :=
  filter (fun p => match snd p with [] => false | _ => true end)
    (map (fun j => (nth j codes "", signal_entries rows j)) (seq 0 (length codes))).
End Table.

(** The RINEX codes of the message's signals; None if one is unknown. *)
Fixpoint codes_of (g : gnss) (sigs : list Z) : option (list string) :=
  match sigs with
  | [] => Some []
  | k :: r => match signal_code g k, codes_of g r with
              | Some c, Some cs => Some (c :: cs)
              | _, _ => None
              end
  end.

Definition scaled_obs (m : msm) (codes : list string) : obs :=
  let t := m_type m in
  {| o_rng := table (rep_rng t) codes (m_rows m);
     o_phs := table (rep_phs t) codes (m_rows m);
     o_ltm := table (rep_ltm t) codes (m_rows m);
     o_hca := table (rep_hca t) codes (m_rows m);
     o_dpl := table (rep_dpl t) codes (m_rows m);
     o_c2n := table (rep_c2n t) codes (m_rows m) |}.

(** GLONASS time: 3 bits of day of week, 27 bits of milliseconds. *)
Definition epoch_time (m : msm) : Z :=
  match m_gnss m with GLO => m_epoch m mod 2 ^ 27 | _ => m_epoch m end.
Definition epoch_day (m : msm) : Z :=
  match m_gnss m with GLO => m_epoch m / 2 ^ 27 | _ => 0 end.

Definition scaled_hdr (m : msm) (codes : list string) : hdr_msm :=
  {| d_signals := map (fun c => (c, carrier (m_gnss m) c)) codes;
     d_sats := map sd_id (m_sats m);
     d_time := epoch_time m; d_day := epoch_day m |}.

Definition text_of (table : list string) (other : string) (code : Z) : string :=
  nth (Z.to_nat code) table other.
Definition scaled_aux (m : msm) : aux_msm :=
  {| x_rs_id := m_station m; x_MMB := m_multiple m; x_IODS := m_iods m;
     x_clk_steer := (m_steering m, text_of ["OFF"; "ON"] "UNDEF" (m_steering m));
     x_clk_ext := (m_ext_clock m,
                   text_of ["INTERNAL"; "EXT-LOCK"; "EXT-UNLOCK"] "UNDEF" (m_ext_clock m));
     x_smth_indc := (m_smooth m, text_of ["UNDEF"; "DVRG-FREE"] "UNDEF" (m_smooth m));
     x_smth_intr := (m_smooth_int m,
                     text_of ["NOSMTH"; "00-30"; "30-60"; "60-120"; "120-240"; "240-480"; "480+"]
                       "UNLIM" (m_smooth_int m)) |}.

Definition scaled_of (m : msm) (codes : list string) : observables :=
  {| ob_obs := scaled_obs m codes; ob_hdr := scaled_hdr m codes; ob_aux := scaled_aux m;
     ob_atr := attributes_of m |}.
