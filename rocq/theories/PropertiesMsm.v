(** * PropertiesMsm: final statements for C13-C15 (MSM, bare mode). *)
From Coq Require Import Sorted.
From Verif Require Import PyBase PyDict BitsSpec MessageSpec MsmModel MsmSpec MsmProofs
  MsmTheorems TestData.
Local Open Scope string_scope.
Local Open Scope list_scope.
Local Open Scope Z_scope.

(** Messages used as examples and witnesses. *)
Definition sample_cell (k : Z) : cell_data :=
  {| cd_rng := 100 - k; cd_phs := -2000 + k; cd_lock := 5 + k; cd_half := k mod 2; cd_cnr := 40;
     cd_rate := 7 |}.
Definition sample_sat (k : Z) : sat_data :=
  {| sd_id := k; sd_ms := 70 + k; sd_ext := 3; sd_rough := 500 + k; sd_rate := -20 |}.
Definition sample_msm (t : msm_type) (sigs : list Z) (rows : list (sat_data * list (option cell_data)))
  : msm :=
  {| m_gnss := GPS; m_type := t; m_station := 77; m_epoch := 200000000; m_multiple := 1;
     m_iods := 2; m_reserved := 0; m_steering := 1; m_ext_clock := 2; m_smooth := 1;
     m_smooth_int := 3; m_sigs := sigs; m_rows := rows |}.
(** Two satellites, two signals, three of the four cells present. *)
Definition sample_rows : list (sat_data * list (option cell_data)) :=
  [(sample_sat 3, [Some (sample_cell 1); None]);
   (sample_sat 17, [Some (sample_cell 2); Some (sample_cell 3)])].
Definition sample_msm7 : msm := sample_msm MSM7 [2; 16] sample_rows.
(** One satellite, three signals. *)
Definition sample_msm2 : msm :=
  sample_msm MSM2 [2; 16; 24]
    [(sample_sat 3, [Some (sample_cell 1); Some (sample_cell 2); Some (sample_cell 3)])].
Definition sample_empty : msm := sample_msm MSM7 [] [].

Ltac msm_ok_tac :=
  unfold msm_ok, header_ok, increasing_within;
  repeat match goal with
  | |- _ /\ _ => split
  | |- StronglySorted _ _ => repeat constructor
  | |- forall c, In c _ -> _ => intros c Hc; cbn in Hc
  | H : _ \/ _ |- _ => destruct H as [<-|H]
  | H : False |- _ => destruct H
  | |- Forall _ _ => repeat constructor
  end; try (vm_compute; repeat split; congruence).

Lemma sample_msm7_ok : msm_ok sample_msm7.
Proof. msm_ok_tac. Qed.
Lemma sample_msm2_ok : msm_ok sample_msm2.
Proof. msm_ok_tac. Qed.
Lemma sample_empty_ok : msm_ok sample_empty.
Proof. msm_ok_tac. Qed.

(** ** C13: bare decoding inverts encoding *)

(** MSM1 and MSM4..MSM7: full statement.  Missing part: MSM2 and MSM3, for which the claim
    is false (next two theorems). *)
Theorem C13_bare_decode_inverts_partial : forall buf m,
  msm_ok m -> msm_nonempty m -> carries buf (msm_bits m) ->
  m_type m <> MSM2 -> m_type m <> MSM3 ->
  decode_msm17 true buf = Ok (Some (MsmBare (bare_of m))).
Proof.
  exact (fun buf m OK NE C A B =>
    proj1 (decode_bare_ok buf m OK NE C) (other_types_pass m A B)).
Qed.
Print Assumptions C13_bare_decode_inverts_partial.

(** All types: decoded exactly when the message passes the (too strict for MSM2/MSM3)
    length check, and then correctly. *)
Theorem C13_bare_decode_exact : forall buf m,
  msm_ok m -> msm_nonempty m -> carries buf (msm_bits m) ->
  (passes_length_check m -> decode_msm17 true buf = Ok (Some (MsmBare (bare_of m)))) /\
  (~ passes_length_check m -> decode_msm17 true buf = Ok None).
Proof. exact decode_bare_ok. Qed.
Print Assumptions C13_bare_decode_exact.

Theorem C13_msm23_refuted : exists buf m,
  msm_ok m /\ msm_nonempty m /\ carries buf (msm_bits m) /\ decode_msm17 true buf = Ok None.
Proof.
  exists (frame_bits (msm_bits sample_msm2) [1; 2; 3]), sample_msm2.
  split; [exact sample_msm2_ok|]. split; [discriminate|].
  split; [apply frame_bits_carries; [vm_compute; congruence|reflexivity|
          apply bytes_okb_ok; vm_compute; reflexivity]|].
  vm_compute. reflexivity.
Qed.
Print Assumptions C13_msm23_refuted.

Example C13_nonvacuous :
  let buf := frame_bits (msm_bits sample_msm7) [9; 8; 7] in
  msm_ok sample_msm7 /\ msm_nonempty sample_msm7 /\ carries buf (msm_bits sample_msm7) /\
  decode_msm17 true buf = Ok (Some (MsmBare (bare_of sample_msm7))).
Proof.
  split; [exact sample_msm7_ok|]. split; [discriminate|].
  split; [apply frame_bits_carries; [vm_compute; congruence|reflexivity|
          apply bytes_okb_ok; vm_compute; reflexivity]|].
  vm_compute. reflexivity.
Qed.

(** ** C14: structural rejection *)

(** Bare decoding yields an object exactly when the frame carries a well-formed message (of
    the right length), and then the object of that message; the only other outcome is None
    (no exception escapes). *)
Theorem C14_accepts_only_messages : forall buf payload crc b,
  transport_frame buf payload crc ->
  (decode_msm17 true buf = Ok (Some (MsmBare b)) <->
   exists m, msm_ok m /\ msm_nonempty m /\ passes_length_check m /\ carries buf (msm_bits m) /\
             b = bare_of m).
Proof. exact decode_bare_iff. Qed.
Print Assumptions C14_accepts_only_messages.

Theorem C14_exact_length : forall is_bare buf payload crc r,
  transport_frame buf payload crc -> decode_msm17 is_bare buf = Ok (Some r) ->
  exists m, msm_ok m /\ msm_nonempty m /\ carries buf (msm_bits m) /\
    zlen buf = frame_length (m_type m) (zlen (m_rows m)) (zlen (m_sigs m)) (zlen (m_cells m)).
Proof. exact decode_some_inv. Qed.
Print Assumptions C14_exact_length.

Theorem C14_never_raises : forall is_bare buf, exists r, decode_msm17 is_bare buf = Ok r.
Proof. exact decode_msm17_total. Qed.
Print Assumptions C14_never_raises.

(** One byte more or one byte less: rejected. *)
Example C14_nonvacuous :
  let p := pack (msm_bits sample_msm7) in
  transport_frame (frame_of (p ++ [0]) [1; 2; 3]) (p ++ [0]) [1; 2; 3] /\
  decode_msm17 true (frame_of (p ++ [0]) [1; 2; 3]) = Ok None /\
  decode_msm17 true (frame_of (removelast p) [1; 2; 3]) = Ok None /\
  (exists b, decode_msm17 true (frame_of p [1; 2; 3]) = Ok (Some (MsmBare b))).
Proof.
  split; [repeat split; try (vm_compute; congruence); apply bytes_okb_ok; vm_compute; reflexivity|].
  split; [vm_compute; reflexivity|]. split; [vm_compute; reflexivity|].
  eexists. vm_compute. reflexivity.
Qed.

(** ** C15: header-only messages *)
Theorem C15_header_only_never_decoded : forall buf m,
  msm_ok m -> m_rows m = [] -> carries buf (msm_bits m) -> bare_decode buf = Err EBareData.
Proof. exact header_only_rejected. Qed.
Print Assumptions C15_header_only_never_decoded.

Theorem C15_header_only_refuted : exists buf m,
  msm_ok m /\ m_rows m = [] /\ carries buf (msm_bits m) /\
  decode_msm17 true buf = Ok None /\ decode_msm17 false buf = Ok None.
Proof.
  exists (frame_bits (msm_bits sample_empty) [1; 2; 3]), sample_empty.
  split; [exact sample_empty_ok|]. split; [reflexivity|].
  split; [apply frame_bits_carries; [vm_compute; congruence|reflexivity|
          apply bytes_okb_ok; vm_compute; reflexivity]|].
  split; vm_compute; reflexivity.
Qed.
Print Assumptions C15_header_only_refuted.
