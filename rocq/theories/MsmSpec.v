(** * MsmSpec: RTCM 10403 MSM messages as abstract data, their bit layout, and the bare
    object that represents them.

    The only model definitions used here are the record types of the objects returned by
    the API ([attributes], [bare_hdr], [bare_msm], ...). *)
From Coq Require Import Sorted.
From Verif Require Import PyBase PyDict BitsSpec MessageSpec MsmModel.
Local Open Scope string_scope.
Local Open Scope list_scope.
Local Open Scope Z_scope.

Inductive gnss := GPS | GLO | GAL | SBAS | QZSS | BDS | NAVIC.
Inductive msm_type := MSM1 | MSM2 | MSM3 | MSM4 | MSM5 | MSM6 | MSM7.

(** Message numbers: 107x GPS, 108x GLONASS, 109x Galileo, 110x SBAS, 111x QZSS,
    112x BeiDou, 113x NavIC; x is the MSM type. *)
Definition gnss_base (g : gnss) : Z :=
  match g with GPS => 1070 | GLO => 1080 | GAL => 1090 | SBAS => 1100 | QZSS => 1110
             | BDS => 1120 | NAVIC => 1130 end.
Definition type_digit (t : msm_type) : Z :=
  match t with MSM1 => 1 | MSM2 => 2 | MSM3 => 3 | MSM4 => 4 | MSM5 => 5 | MSM6 => 6
             | MSM7 => 7 end.
Definition msm_number (g : gnss) (t : msm_type) : Z := gnss_base g + type_digit t.
Definition gnss_letter (g : gnss) : string :=
  match g with GPS => "G" | GLO => "R" | GAL => "E" | SBAS => "S" | QZSS => "Q"
             | BDS => "B" | NAVIC => "I" end.
Definition type_name (t : msm_type) : string :=
  match t with MSM1 => "MSM1" | MSM2 => "MSM2" | MSM3 => "MSM3" | MSM4 => "MSM4"
             | MSM5 => "MSM5" | MSM6 => "MSM6" | MSM7 => "MSM7" end.

(** Data of one satellite and of one (satellite, signal) cell.  A message of a given type
    transmits only some of these. *)
Record sat_data := {
  sd_id : Z;        (* satellite 1..64 *)
  sd_ms : Z;        (* DF397 whole milliseconds of rough range *)
  sd_ext : Z;       (* extended information *)
  sd_rough : Z;     (* DF398 rough range modulo 1 ms, 1/1024 ms *)
  sd_rate : Z }.    (* DF399 rough phase-range rate, m/s *)
Record cell_data := {
  cd_rng : Z;       (* DF400/DF405 fine pseudorange *)
  cd_phs : Z;       (* DF401/DF406 fine phase range *)
  cd_lock : Z;      (* DF402/DF407 lock time indicator *)
  cd_half : Z;      (* DF420 half-cycle ambiguity indicator *)
  cd_cnr : Z;       (* DF403/DF408 carrier to noise ratio *)
  cd_rate : Z }.    (* DF404 fine phase-range rate *)

(** A message: header values, the signals it announces (numbers 1..32, increasing) and one
    row per satellite; a row has one entry per signal, [Some c] when the cell is present. *)
Record msm := {
  m_gnss : gnss; m_type : msm_type;
  m_station : Z; m_epoch : Z; m_multiple : Z; m_iods : Z; m_reserved : Z;
  m_steering : Z; m_ext_clock : Z; m_smooth : Z; m_smooth_int : Z;
  m_sigs : list Z;
  m_rows : list (sat_data * list (option cell_data)) }.

Definition m_sats (m : msm) : list sat_data := map fst (m_rows m).
Definition row_cells (row : list (option cell_data)) : list cell_data :=
  flat_map (fun o => match o with Some c => [c] | None => [] end) row.
Definition m_cells (m : msm) : list cell_data := flat_map (fun r => row_cells (snd r)) (m_rows m).

(** ** Layout *)

Inductive signedness := Unsigned | Signed.
(** A column: width, signedness, transmitted value. *)
Definition column (A : Type) := (nat * signedness * (A -> Z))%type.

Definition sat_columns (t : msm_type) : list (column sat_data) :=
  match t with
  | MSM1 | MSM2 | MSM3 => [(10%nat, Unsigned, sd_rough)]
  | MSM4 | MSM6 => [(8%nat, Unsigned, sd_ms); (10%nat, Unsigned, sd_rough)]
  | MSM5 | MSM7 => [(8%nat, Unsigned, sd_ms); (4%nat, Unsigned, sd_ext);
                    (10%nat, Unsigned, sd_rough); (14%nat, Signed, sd_rate)]
  end.

Definition cell_columns (t : msm_type) : list (column cell_data) :=
  match t with
  | MSM1 => [(15%nat, Signed, cd_rng)]
  | MSM2 => [(22%nat, Signed, cd_phs); (4%nat, Unsigned, cd_lock); (1%nat, Unsigned, cd_half)]
  | MSM3 => [(15%nat, Signed, cd_rng); (22%nat, Signed, cd_phs); (4%nat, Unsigned, cd_lock);
             (1%nat, Unsigned, cd_half)]
  | MSM4 => [(15%nat, Signed, cd_rng); (22%nat, Signed, cd_phs); (4%nat, Unsigned, cd_lock);
             (1%nat, Unsigned, cd_half); (6%nat, Unsigned, cd_cnr)]
  | MSM5 => [(15%nat, Signed, cd_rng); (22%nat, Signed, cd_phs); (4%nat, Unsigned, cd_lock);
             (1%nat, Unsigned, cd_half); (6%nat, Unsigned, cd_cnr); (15%nat, Signed, cd_rate)]
  | MSM6 => [(20%nat, Signed, cd_rng); (24%nat, Signed, cd_phs); (10%nat, Unsigned, cd_lock);
             (1%nat, Unsigned, cd_half); (10%nat, Unsigned, cd_cnr)]
  | MSM7 => [(20%nat, Signed, cd_rng); (24%nat, Signed, cd_phs); (10%nat, Unsigned, cd_lock);
             (1%nat, Unsigned, cd_half); (10%nat, Unsigned, cd_cnr); (15%nat, Signed, cd_rate)]
  end.

(** A mask of [n] bits: the bit of number k (1..n) is the k-th transmitted bit. *)
Definition member (k : Z) (l : list Z) : bool := existsb (Z.eqb k) l.
Definition mask_bits (n : Z) (l : list Z) : list bool :=
  map (fun k => member k l) (zrange 1 (n + 1)).

Definition present (o : option cell_data) : bool := match o with Some _ => true | None => false end.
Definition cell_bits (m : msm) : list bool := flat_map (fun r => map present (snd r)) (m_rows m).

Definition column_bits {A} (items : list A) (c : column A) : list bool :=
  let '(w, _, get) := c in flat_map (fun x => enc w (get x)) items.

Definition header_bits (m : msm) : list bool :=
  enc 12 (msm_number (m_gnss m) (m_type m)) ++ enc 12 (m_station m) ++ enc 30 (m_epoch m) ++
  enc 1 (m_multiple m) ++ enc 3 (m_iods m) ++ enc 7 (m_reserved m) ++ enc 2 (m_steering m) ++
  enc 2 (m_ext_clock m) ++ enc 1 (m_smooth m) ++ enc 3 (m_smooth_int m) ++
  mask_bits 64 (map sd_id (m_sats m)) ++ mask_bits 32 (m_sigs m).

(** The whole message. *)
Definition msm_bits (m : msm) : list bool :=
  header_bits m ++ cell_bits m ++
  flat_map (column_bits (m_sats m)) (sat_columns (m_type m)) ++
  flat_map (column_bits (m_cells m)) (cell_columns (m_type m)).

(** ** Well-formedness *)
Definition fits {A} (c : column A) (x : A) : Prop :=
  let '(w, s, get) := c in match s with Unsigned => fits_u w (get x) | Signed => fits_s w (get x) end.

Definition increasing_within (n : Z) (l : list Z) : Prop :=
  StronglySorted Z.lt l /\ Forall (fun k => 1 <= k <= n) l.

Definition header_ok (m : msm) : Prop :=
  fits_u 12 (m_station m) /\ fits_u 30 (m_epoch m) /\ fits_u 1 (m_multiple m) /\
  fits_u 3 (m_iods m) /\ fits_u 7 (m_reserved m) /\ fits_u 2 (m_steering m) /\
  fits_u 2 (m_ext_clock m) /\ fits_u 1 (m_smooth m) /\ fits_u 3 (m_smooth_int m).

Definition msm_ok (m : msm) : Prop :=
  header_ok m /\
  increasing_within 64 (map sd_id (m_sats m)) /\ increasing_within 32 (m_sigs m) /\
  Forall (fun r => length (snd r) = length (m_sigs m)) (m_rows m) /\
  zlen (m_rows m) * zlen (m_sigs m) <= 64 /\
  (forall c, In c (sat_columns (m_type m)) -> Forall (fits c) (m_sats m)) /\
  (forall c, In c (cell_columns (m_type m)) -> Forall (fits c) (m_cells m)).

(** At least one satellite, one signal and one cell. *)
Definition msm_nonempty (m : msm) : Prop := m_cells m <> [].

(** ** The bare object *)

(** A mask as an integer: the first transmitted bit is the least significant one, i.e.
    number k is bit k-1. *)
Fixpoint lsb_value (l : list bool) : Z :=
  match l with [] => 0 | b :: r => Z.b2z b + 2 * lsb_value r end.

Definition bare_header_of (m : msm) : bare_hdr :=
  {| h_rs_id := m_station m; h_time := m_epoch m; h_MMB := m_multiple m; h_IODS := m_iods m;
     h_clk_steer := m_steering m; h_clk_ext := m_ext_clock m; h_smth_indc := m_smooth m;
     h_smth_intr := m_smooth_int m;
     h_sat_mask := lsb_value (mask_bits 64 (map sd_id (m_sats m)));
     h_sgn_mask := lsb_value (mask_bits 32 (m_sigs m));
     h_cell_mask := lsb_value (cell_bits m) |}.

Definition attributes_of (m : msm) : attributes :=
  {| a_gnss := gnss_letter (m_gnss m); a_subset := type_name (m_type m);
     a_msg_number := msm_number (m_gnss m) (m_type m) |}.

(** A column that the message type does not transmit keeps the placeholder (0,). *)
Definition unsent : list Z := [0].

Definition bare_of (m : msm) : bare_msm :=
  let a := attributes_of m in
  let h := bare_header_of m in
  let s f := map f (m_sats m) in
  let c f := map f (m_cells m) in
  match m_type m with
  | MSM1 => Bare123 a h {| sat1_rng_rough := s sd_rough |}
      {| sgn1_rng_fine := c cd_rng; sgn1_phase_fine := unsent; sgn1_lock_time := unsent;
         sgn1_hc_indc := unsent |}
  | MSM2 => Bare123 a h {| sat1_rng_rough := s sd_rough |}
      {| sgn1_rng_fine := unsent; sgn1_phase_fine := c cd_phs; sgn1_lock_time := c cd_lock;
         sgn1_hc_indc := c cd_half |}
  | MSM3 => Bare123 a h {| sat1_rng_rough := s sd_rough |}
      {| sgn1_rng_fine := c cd_rng; sgn1_phase_fine := c cd_phs; sgn1_lock_time := c cd_lock;
         sgn1_hc_indc := c cd_half |}
  | MSM4 | MSM6 => Bare4567 a h
      {| sat_rng_ms := s sd_ms; sat_ext_info := unsent; sat_rng_rough := s sd_rough;
         sat_phase_rate_rough := unsent |}
      {| sgn_rng_fine := c cd_rng; sgn_phase_fine := c cd_phs; sgn_lock_time := c cd_lock;
         sgn_hc_indc := c cd_half; sgn_c2n := c cd_cnr; sgn_phase_rate_fine := unsent |}
  | MSM5 | MSM7 => Bare4567 a h
      {| sat_rng_ms := s sd_ms; sat_ext_info := s sd_ext; sat_rng_rough := s sd_rough;
         sat_phase_rate_rough := s sd_rate |}
      {| sgn_rng_fine := c cd_rng; sgn_phase_fine := c cd_phs; sgn_lock_time := c cd_lock;
         sgn_hc_indc := c cd_half; sgn_c2n := c cd_cnr; sgn_phase_rate_fine := c cd_rate |}
  end.

(** ** The length check of MSM2 and MSM3

    The code estimates the length of MSM2/MSM3 with one bit per cell too many (28 and 43
    instead of 27 and 42), so such a message passes only when the extra bits do not spill
    into another byte. *)
Definition length_check_slack (m : msm) : Z :=
  match m_type m with MSM2 | MSM3 => zlen (m_cells m) | _ => 0 end.
Definition passes_length_check (m : msm) : Prop :=
  (zlen (msm_bits m) + length_check_slack m + 7) / 8 = (zlen (msm_bits m) + 7) / 8.
