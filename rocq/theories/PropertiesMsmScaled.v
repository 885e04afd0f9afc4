(** * PropertiesMsmScaled: final statements for C16-C20 (MSM, physical units). *)
From Coq Require Import Reals Sorted.
From Flocq Require Import Core.
From Verif Require Import PyBase PyDict PyFloat FloatProofs BitsSpec MessageSpec TablesModel MsmModel
  MsmSpec MsmProofs MsmTheorems MsmScaleSpec MsmScaleProofs MsmConvert MsmScaleTheorems MsmRange TestData PropertiesMsm BitsProofs.
Local Open Scope string_scope.
Local Open Scope list_scope.
Local Open Scope Z_scope.

(** ** C16: each observable lands on its own satellite and signal *)

(** The whole scaled object is determined. *)
Theorem C16_scaled_object : forall buf m codes,
  msm_ok m -> msm_nonempty m -> carries buf (msm_bits m) -> passes_length_check m ->
  codes_of (m_gnss m) (m_sigs m) = Some codes ->
  decode_msm17 false buf = Ok (Some (MsmScaled (scaled_of m codes))).
Proof.
  intros buf m codes OK NE C P E. rewrite (decode_scaled_ok buf m OK NE C P), E. reflexivity.
Qed.
Print Assumptions C16_scaled_object.

(** Entry by entry: the value found under a signal and a satellite of the message is a
    function of that satellite's data and that cell only.  For the phase observables of MSM3
    see C18. *)
Theorem C16_own_cell : forall buf m codes,
  msm_ok m -> msm_nonempty m -> carries buf (msm_bits m) -> passes_length_check m ->
  codes_of (m_gnss m) (m_sigs m) = Some codes ->
  exists r, decode_msm17 false buf = Ok (Some (MsmScaled r)) /\
  let o := ob_obs r in let t := m_type m in
  (forall s row j sig oc,
     In (s, row) (m_rows m) -> nth_error codes j = Some sig -> nth_error row j = Some oc ->
     lookup (o_rng o) sig (sd_id s) = of_cell (code_range t s) oc /\
     lookup (o_dpl o) sig (sd_id s) = of_cell (phase_rate t s) oc /\
     lookup (o_c2n o) sig (sd_id s) = of_cell (cnr_value t s) oc /\
     (t <> MSM3 ->
      lookup (o_phs o) sig (sd_id s) = of_cell (phase_range t s) oc /\
      lookup (o_ltm o) sig (sd_id s) = of_cell (lock_value t s) oc /\
      lookup (o_hca o) sig (sd_id s) = of_cell (half_value t s) oc)) /\
  (forall sig sat,
     lookup (o_rng o) sig sat <> None \/ lookup (o_phs o) sig sat <> None \/
     lookup (o_ltm o) sig sat <> None \/ lookup (o_hca o) sig sat <> None \/
     lookup (o_dpl o) sig sat <> None \/ lookup (o_c2n o) sig sat <> None ->
     has_cell m codes sig sat).
Proof.
  intros buf m codes OK NE C P E. exists (scaled_of m codes).
  split; [exact (C16_scaled_object buf m codes OK NE C P E)|].
  split; [exact (observables_ok m codes OK E)|].
  intros sig sat. exact (only_cells m codes sig sat OK E).
Qed.
Print Assumptions C16_own_cell.

(** The codes used as keys are those of the message's signals, in order, and distinct. *)
Theorem C16_keys : forall m codes, msm_ok m -> codes_of (m_gnss m) (m_sigs m) = Some codes ->
  Forall2 (fun k c => signal_code (m_gnss m) k = Some c) (m_sigs m) codes /\ NoDup codes.
Proof.
  intros m codes OK E. split; [exact (codes_of_spec _ _ _ E)|exact (codes_nodup_ok m codes OK E)].
Qed.
Print Assumptions C16_keys.

(** The sample message satisfies the hypotheses; cell (17, "2L") holds the second cell of
    satellite 17, and satellite 3 has no "2L" cell. *)
Example C16_nonvacuous :
  passes_length_check sample_msm7 /\
  codes_of (m_gnss sample_msm7) (m_sigs sample_msm7) = Some ["1C"; "2L"] /\
  exists r, decode_msm17 false (frame_bits (msm_bits sample_msm7) [9; 8; 7]) = Ok (Some (MsmScaled r)) /\
    lookup (o_rng (ob_obs r)) "2L" 17 = code_range MSM7 (sample_sat 17) (sample_cell 3) /\
    lookup (o_rng (ob_obs r)) "2L" 17 <> None /\
    lookup (o_rng (ob_obs r)) "2L" 3 = None.
Proof.
  split; [vm_compute; reflexivity|]. split; [reflexivity|].
  eexists. split; [vm_compute; reflexivity|].
  split; [vm_compute; reflexivity|]. split; [vm_compute; discriminate|vm_compute; reflexivity].
Qed.

(** ** C17: accuracy of the reconstructed ranges *)
Lemma row_fits m s row : msm_ok m -> In (s, row) (m_rows m) -> sat_fits (m_type m) s.
Proof.
  intros (_ & _ & _ & _ & _ & H & _) I. apply Forall_forall. intros c Hc.
  specialize (H c Hc). rewrite Forall_forall in H. apply H. unfold m_sats.
  change s with (fst (s, row)). now apply in_map.
Qed.
Lemma row_cell_fits m s row j c : msm_ok m -> In (s, row) (m_rows m) -> nth_error row j = Some (Some c) ->
  cell_fits (m_type m) c.
Proof.
  intros (_ & _ & _ & _ & _ & _ & H) I E. apply Forall_forall. intros k Hk.
  specialize (H k Hk). rewrite Forall_forall in H. apply H. unfold m_cells.
  apply in_flat_map. exists (s, row). split; [exact I|]. cbn [snd]. unfold row_cells.
  apply in_flat_map. exists (Some c). split; [now apply nth_error_In in E|now left].
Qed.

Lemma ranges_accurate buf m codes r :
  msm_ok m -> msm_nonempty m -> carries buf (msm_bits m) -> passes_length_check m ->
  codes_of (m_gnss m) (m_sigs m) = Some codes -> decode_msm17 false buf = Ok (Some (MsmScaled r)) ->
  forall s row j sig c x,
  In (s, row) (m_rows m) -> nth_error codes j = Some sig -> nth_error row j = Some (Some c) ->
  (lookup (o_rng (ob_obs r)) sig (sd_id s) = Some x ->
   exists v, is_val x v /\
     (Rabs (v - metres_exact (rough_exact (m_type m) s) (IZR (cd_rng c) * code_resolution (m_type m))) < 2 / 10 ^ 8)%R) /\
  (lookup (o_phs (ob_obs r)) sig (sd_id s) = Some x ->
   exists v, is_val x v /\
     (Rabs (v - metres_exact (rough_exact (m_type m) s) (IZR (cd_phs c) * phase_resolution (m_type m))) < 2 / 10 ^ 8)%R).
Proof.
  intros OK NE C P E D s row j sig c x I EJ ER.
  rewrite (C16_scaled_object buf m codes OK NE C P E) in D. inversion D; subst r. clear D.
  pose proof (row_fits m s row OK I) as F1. pose proof (row_cell_fits m s row j c OK I ER) as F2.
  cbn [scaled_of ob_obs scaled_obs o_rng o_phs].
  rewrite !(lookup_table _ codes (m_rows m) j sig s row (codes_nodup_ok m codes OK E) (sats_nodup m OK) EJ I).
  rewrite (nth_error_nth _ _ None ER). split.
  - exact (code_range_accurate _ s c x F1 F2).
  - unfold rep_phs. destruct (blocked _ _ _); [discriminate|]. exact (phase_range_accurate _ s c x F1 F2).
Qed.

Theorem C17_range_accuracy : forall buf m codes r,
  msm_ok m -> msm_nonempty m -> carries buf (msm_bits m) -> passes_length_check m ->
  codes_of (m_gnss m) (m_sigs m) = Some codes -> decode_msm17 false buf = Ok (Some (MsmScaled r)) ->
  forall s row j sig c x,
  In (s, row) (m_rows m) -> nth_error codes j = Some sig -> nth_error row j = Some (Some c) ->
  (lookup (o_rng (ob_obs r)) sig (sd_id s) = Some x ->
   exists v, is_val x v /\
     (Rabs (v - metres_exact (rough_exact (m_type m) s) (IZR (cd_rng c) * code_resolution (m_type m))) < 2 / 10 ^ 8)%R) /\
  (lookup (o_phs (ob_obs r)) sig (sd_id s) = Some x ->
   exists v, is_val x v /\
     (Rabs (v - metres_exact (rough_exact (m_type m) s) (IZR (cd_phs c) * phase_resolution (m_type m))) < 2 / 10 ^ 8)%R).
Proof. exact ranges_accurate. Qed.
Print Assumptions C17_range_accuracy.

(** Both ranges of the sample cell are reported (hypotheses: C16_nonvacuous). *)
Example C17_nonvacuous :
  exists r x y, decode_msm17 false (frame_bits (msm_bits sample_msm7) [9; 8; 7]) = Ok (Some (MsmScaled r)) /\
    lookup (o_rng (ob_obs r)) "2L" 17 = Some x /\ lookup (o_phs (ob_obs r)) "2L" 17 = Some y.
Proof. do 3 eexists. split; [vm_compute; reflexivity|]. split; vm_compute; reflexivity. Qed.

(** ** C18: MSM3 phases *)

(** One satellite, two signals; the first cell has no valid fine range, the second one has a
    valid phase. *)
Definition bad_range_cell : cell_data :=
  {| cd_rng := -16384; cd_phs := 5; cd_lock := 1; cd_half := 0; cd_cnr := 0; cd_rate := 0 |}.
Definition sample_msm3 : msm :=
  sample_msm MSM3 [2; 16] [(sample_sat 3, [Some bad_range_cell; Some (sample_cell 1)])].
Lemma sample_msm3_ok : msm_ok sample_msm3.
Proof. msm_ok_tac. Qed.

Theorem C18_phase_dropped_refuted : exists buf m codes r s row j sig c,
  msm_ok m /\ msm_nonempty m /\ carries buf (msm_bits m) /\ passes_length_check m /\
  codes_of (m_gnss m) (m_sigs m) = Some codes /\ m_type m = MSM3 /\
  decode_msm17 false buf = Ok (Some (MsmScaled r)) /\
  In (s, row) (m_rows m) /\ nth_error codes j = Some sig /\ nth_error row j = Some (Some c) /\
  range_invalid MSM3 c = false /\ phase_invalid MSM3 c = false /\
  lookup (o_phs (ob_obs r)) sig (sd_id s) = None.
Proof.
  exists (frame_bits (msm_bits sample_msm3) [1; 2; 3]), sample_msm3, ["1C"; "2L"],
    (scaled_of sample_msm3 ["1C"; "2L"]), (sample_sat 3), [Some bad_range_cell; Some (sample_cell 1)],
    1%nat, "2L", (sample_cell 1).
  assert (OK := sample_msm3_ok).
  assert (C : carries (frame_bits (msm_bits sample_msm3) [1; 2; 3]) (msm_bits sample_msm3)).
  { apply frame_bits_carries; [vm_compute; congruence|reflexivity|apply bytes_okb_ok; vm_compute; reflexivity]. }
  assert (P : passes_length_check sample_msm3) by (vm_compute; reflexivity).
  split; [exact OK|]. split; [discriminate|]. split; [exact C|]. split; [exact P|].
  split; [reflexivity|]. split; [reflexivity|].
  split; [apply C16_scaled_object; [exact OK|discriminate|exact C|exact P|reflexivity]|].
  split; [now left|]. repeat split; vm_compute; reflexivity.
Qed.
Print Assumptions C18_phase_dropped_refuted.

(** What does hold: the phase is reported when, besides itself, every fine range of the same
    satellite up to the cell is valid.  (Full claim, false: without that condition.) *)
Theorem C18_phase_reported_partial : forall buf m codes,
  msm_ok m -> msm_nonempty m -> carries buf (msm_bits m) -> passes_length_check m ->
  codes_of (m_gnss m) (m_sigs m) = Some codes -> m_type m = MSM3 ->
  exists r, decode_msm17 false buf = Ok (Some (MsmScaled r)) /\
  forall s row j sig c,
  In (s, row) (m_rows m) -> nth_error codes j = Some sig -> nth_error row j = Some (Some c) ->
  (forall i c', (i <= j)%nat -> nth_error row i = Some (Some c') -> range_invalid MSM3 c' = false) ->
  phase_invalid MSM3 c = false ->
  exists x, phase_range MSM3 s c = Some x /\ lookup (o_phs (ob_obs r)) sig (sd_id s) = Some x.
Proof.
  intros buf m codes OK NE C P E T. exists (scaled_of m codes).
  split; [exact (C16_scaled_object buf m codes OK NE C P E)|].
  exact (msm3_phase_all_valid m codes OK E T).
Qed.
Print Assumptions C18_phase_reported_partial.

(** Exact behaviour. *)
Theorem C18_phase_exact : forall buf m codes,
  msm_ok m -> msm_nonempty m -> carries buf (msm_bits m) -> passes_length_check m ->
  codes_of (m_gnss m) (m_sigs m) = Some codes -> m_type m = MSM3 ->
  exists r, decode_msm17 false buf = Ok (Some (MsmScaled r)) /\
  forall s row j sig c,
  In (s, row) (m_rows m) -> nth_error codes j = Some sig -> nth_error row j = Some (Some c) ->
  lookup (o_phs (ob_obs r)) sig (sd_id s) =
  if existsb (range_invalid MSM3) (row_cells (firstn j row) ++ [c]) then None else phase_range MSM3 s c.
Proof.
  intros buf m codes OK NE C P E T. exists (scaled_of m codes).
  split; [exact (C16_scaled_object buf m codes OK NE C P E)|].
  exact (msm3_phase m codes OK E T).
Qed.
Print Assumptions C18_phase_exact.

(** A cell meeting the hypotheses of the partial theorem. *)
Definition sample_msm3b : msm :=
  sample_msm MSM3 [2; 16] [(sample_sat 3, [Some (sample_cell 2); Some (sample_cell 1)])].
Example C18_nonvacuous :
  msm_ok sample_msm3b /\ passes_length_check sample_msm3b /\
  (forall i c', (i <= 1)%nat -> nth_error [Some (sample_cell 2); Some (sample_cell 1)] i = Some (Some c') ->
     range_invalid MSM3 c' = false) /\
  phase_invalid MSM3 (sample_cell 1) = false.
Proof.
  split; [msm_ok_tac|]. split; [vm_compute; reflexivity|].
  split; [|vm_compute; reflexivity].
  intros [|[|i]] c' Hi H; cbn in H; inversion H; [reflexivity|reflexivity|lia].
Qed.

(** ** C19: lock-time indicators *)
Theorem C19_tlock10_increasing : forall i j, 0 <= i < j -> j <= 704 -> unpack_tlock10 i < unpack_tlock10 j.
Proof.
  assert (HS : forallb (fun i => unpack_tlock10 i <? unpack_tlock10 (i + 1)) (zrange 0 704) = true)
    by (vm_compute; reflexivity).
  assert (K : forall n i, 0 <= i -> i + Z.of_nat (S n) <= 704 -> unpack_tlock10 i < unpack_tlock10 (i + Z.of_nat (S n))).
  { rewrite forallb_forall in HS. induction n as [|n IH]; intros i H1 H2.
    - change (Z.of_nat 1) with 1. apply Z.ltb_lt, HS, zrange_In. lia.
    - eapply Z.lt_trans; [apply (IH i); lia|].
      replace (i + Z.of_nat (S (S n))) with ((i + Z.of_nat (S n)) + 1) by lia.
      apply Z.ltb_lt, HS, zrange_In. lia. }
  intros i j H1 H2. specialize (K (Z.to_nat (j - i - 1)) i ltac:(lia) ltac:(lia)).
  replace (i + Z.of_nat (S (Z.to_nat (j - i - 1)))) with j in K by lia. exact K.
Qed.
Print Assumptions C19_tlock10_increasing.

Theorem C19_tlock4_increasing : forall i j, 0 <= i < j -> j <= 15 -> unpack_tlock4 i < unpack_tlock4 j.
Proof.
  intros i j H1 H2.
  assert (S : forallb (fun i => forallb (fun j => (j <=? i) || (unpack_tlock4 i <? unpack_tlock4 j))
    (zrange 0 16)) (zrange 0 16) = true) by (vm_compute; reflexivity).
  rewrite forallb_forall in S. specialize (S i (proj2 (zrange_In 0 16 i) ltac:(lia))).
  rewrite forallb_forall in S. specialize (S j (proj2 (zrange_In 0 16 j) ltac:(lia))).
  apply Bool.orb_true_iff in S. destruct S as [S|S]; [apply Z.leb_le in S; lia|now apply Z.ltb_lt].
Qed.
Print Assumptions C19_tlock4_increasing.

(** The values are those of DF407 and DF402; indicators above 704 are reserved and give 0. *)
Theorem C19_tables : (forall i, fits_u 10 i -> unpack_tlock10 i = df407_ms i) /\
  (forall i, fits_u 4 i -> unpack_tlock4 i = df402_ms i) /\ (forall i, 704 < i -> unpack_tlock10 i = 0).
Proof.
  split; [exact tlock10_ok|]. split; [exact lock4_ok|].
  intros i H. unfold unpack_tlock10.
  rewrite (proj2 (Z.ltb_ge _ _)), (proj2 (Z.ltb_ge _ _)), (proj2 (Z.eqb_neq _ _)) by lia. reflexivity.
Qed.
Print Assumptions C19_tables.
Example C19_nonvacuous : unpack_tlock10 64 = 64 /\ unpack_tlock10 703 = 66060288 /\ unpack_tlock4 15 = 524288.
Proof. repeat split; vm_compute; reflexivity. Qed.

(** ** C20: signal tables *)
Theorem C20_codes_injective : forall g i j c,
  rnx_lit (gnss_letter g) i = Some c -> rnx_lit (gnss_letter g) j = Some c ->
  1 <= i <= 32 -> 1 <= j <= 32 -> i = j.
Proof.
  intros g i j c H1 H2 I J. rewrite rnx_lit_ok in H1, H2 by assumption.
  exact (signal_code_inj g i j c H1 H2).
Qed.
Print Assumptions C20_codes_injective.

Theorem C20_codes_have_carriers : forall g i c,
  1 <= i <= 32 -> rnx_lit (gnss_letter g) i = Some c ->
  crr_frq (gnss_letter g) (Some c) = Ok (carrier g c).
Proof. intros g i c I H. rewrite rnx_lit_ok in H by assumption. exact (crr_frq_ok g i c H). Qed.
Print Assumptions C20_codes_have_carriers.

Theorem C20_scaled_iff_known : forall buf m,
  msm_ok m -> msm_nonempty m -> carries buf (msm_bits m) -> passes_length_check m ->
  ((exists r, decode_msm17 false buf = Ok (Some r)) <->
   forall k, In k (m_sigs m) -> rnx_lit (gnss_letter (m_gnss m)) k <> None).
Proof.
  intros buf m OK NE C P. rewrite (decode_scaled_ok buf m OK NE C P).
  assert (HK : forall k, In k (m_sigs m) -> 1 <= k <= 32).
  { destruct OK as (_ & _ & (_ & F) & _). now apply Forall_forall. }
  destruct (codes_of (m_gnss m) (m_sigs m)) as [codes|] eqn:E.
  - split; [|intros _; eexists; reflexivity]. intros _ k I X. rewrite rnx_lit_ok in X by auto.
    assert (N : codes_of (m_gnss m) (m_sigs m) = None) by (apply codes_of_known; eauto). congruence.
  - apply codes_of_known in E. destruct E as (k & I & X).
    split; [intros (r & H); discriminate|]. intros H. destruct (H k I). rewrite rnx_lit_ok by auto. exact X.
Qed.
Print Assumptions C20_scaled_iff_known.

(** A known and an unknown signal (GPS signal 5 is reserved). *)
Definition sample_unknown : msm := sample_msm MSM7 [2; 5] sample_rows.
Example C20_nonvacuous :
  rnx_lit "G" 2 = Some "1C" /\ rnx_lit "G" 5 = None /\ msm_ok sample_unknown /\
  passes_length_check sample_unknown /\
  decode_msm17 false (frame_bits (msm_bits sample_unknown) [0; 0; 0]) = Ok None.
Proof.
  split; [reflexivity|]. split; [reflexivity|]. split; [msm_ok_tac|].
  split; vm_compute; reflexivity.
Qed.
