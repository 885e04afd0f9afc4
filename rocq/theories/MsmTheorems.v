(** * MsmTheorems: rejection, totality and length of the MSM decoders. *)
From Verif Require Import PyBase PyDict PyFloat BitsModel BitsSpec BitsProofs MessageSpec
  ReadProofs TablesModel MsmModel MsmSpec MsmProofs MsmConverse CleanProofs.
Local Open Scope string_scope.
Local Open Scope list_scope.
Local Open Scope Z_scope.

Lemma clean_extract_hdr buf off : clean (extract_hdr buf off).
Proof. unfold extract_hdr. clean_tac. Qed.
Lemma clean_next_bw l : clean (next_bw l).
Proof. unfold next_bw. clean_tac. Qed.
Lemma clean_column_u b o w n : clean (column_u b o w n).
Proof. unfold column_u. clean_tac. Qed.
Lemma clean_column_s b o w n : clean (column_s b o w n).
Proof. unfold column_s. clean_tac. Qed.

Ltac clean_col :=
  repeat first [apply clean_next_bw | apply clean_column_u | apply clean_column_s | clean_step].

Lemma clean_extract4567 buf a h off : clean (extract_observables4567 buf a h off).
Proof. unfold extract_observables4567. clean_col. Qed.
Lemma clean_extract123 buf a h off : clean (extract_observables123 buf a h off).
Proof. unfold extract_observables123. clean_col. Qed.

Lemma clean_bare_decode buf : clean (bare_decode buf).
Proof.
  unfold bare_decode. apply clean_bind; [apply clean_catch, clean_getbitu|]. intros [num|] _; [|exact I].
  destruct (msm_subset num).
  repeat first [apply clean_extract_hdr | apply clean_extract4567 | apply clean_extract123 | clean_step].
Qed.

Lemma clean_obs_put {V} (d : obs_dict V) s k v : clean (obs_put d s k v).
Proof. unfold obs_put. clean_tac. Qed.
Lemma clean_obs_prune {V} l (d : obs_dict V) : clean (obs_prune l d).
Proof. unfold obs_prune. clean_tac. Qed.

Ltac clean_scale := repeat first [apply clean_obs_put | apply clean_obs_prune | clean_step].

Lemma shift_fuel slots fuel : 0 <= slots < 2 ^ Z.of_nat (S fuel) ->
  0 <= Z.shiftr slots 1 < 2 ^ Z.of_nat fuel.
Proof.
  rewrite Nat2Z.inj_succ, Z.pow_succ_r by lia. rewrite Z.shiftr_div_pow2 by lia.
  change (2 ^ 1) with 2. lia.
Qed.

Lemma clean_cells47 fuel : forall names g sc ck sat ok rng pok pr slots i idx o,
  0 <= slots < 2 ^ Z.of_nat fuel ->
  clean (cells47 fuel names g sc ck sat ok rng pok pr slots i idx o).
Proof.
  induction fuel as [|fuel IH]; intros; cbn [cells47]; destruct (slots =? 0) eqn:Z0; try exact I.
  - change (2 ^ Z.of_nat 0) with 1 in H. lia.
  - apply shift_fuel in H.
    repeat first [apply clean_obs_put | apply IH; exact H | clean_step].
Qed.
Lemma clean_cells13 fuel : forall names g sat ok rng pok slots i idx o,
  0 <= slots < 2 ^ Z.of_nat fuel ->
  clean (cells13 fuel names g sat ok rng pok slots i idx o).
Proof.
  induction fuel as [|fuel IH]; intros; cbn [cells13]; destruct (slots =? 0) eqn:Z0; try exact I.
  - change (2 ^ Z.of_nat 0) with 1 in H. lia.
  - apply shift_fuel in H.
    repeat first [apply clean_obs_put | apply IH; exact H | clean_step].
Qed.

Lemma slot_fuel_ok slots : 0 <= slots -> 0 <= slots < 2 ^ Z.of_nat (slot_fuel slots).
Proof.
  intros H. split; [exact H|]. unfold slot_fuel.
  destruct (Z.eq_dec slots 0) as [->|N]; [reflexivity|].
  pose proof (Z.log2_spec slots ltac:(lia)) as L. pose proof (Z.log2_nonneg slots).
  rewrite Z2Nat.id by lia. rewrite Z.add_1_r. lia.
Qed.

Lemma bit_count_nonneg z : 0 <= bit_count z.
Proof.
  destruct z as [|p|p]; cbn [bit_count]; [lia| |]; induction p; cbn [pos_count]; lia.
Qed.

Lemma clean_convert src : clean (convert src).
Proof.
  unfold convert. destruct src as [src|]; [|exact I].
  destruct (String.eqb _ _); [exact I|]. destruct (h_sat_mask _ =? 0); [exact I|].
  apply clean_bind.
  { apply clean_map_res. intros x. apply clean_bind.
    - unfold crr_frq. repeat first [clean_step | apply clean_dindex].
    - intros a _. destruct x; exact I. }
  intros sgns _. cbv zeta.
  set (sl := map _ (zrange 0 _)).
  assert (P : Forall (fun s => 0 <= s) sl).
  { unfold sl. apply Forall_forall. intros s Hs. apply in_map_iff in Hs. destruct Hs as (i & <- & _).
    apply Z.land_nonneg. right. rewrite Z.shiftl_mul_pow2 by apply bit_count_nonneg.
    pose proof (Z.pow_pos_nonneg 2 (bit_count (h_sgn_mask (bare_header src))) ltac:(lia)
                  (bit_count_nonneg _)). lia. }
  apply clean_bind; [|intros; exact I].
  rewrite Forall_forall in P.
  destruct src as [a h s g|a h s g].
  - unfold convert_obs47. destruct (if is_msm7 a || is_msm6 a then _ else _) as [sc ck].
    apply clean_bind; [|intros [[o ?] ?] _; clean_scale].
    apply clean_for_each. intros [[o si] gi] sl' Hin.
    repeat first [apply clean_cells47, slot_fuel_ok, P, Hin | clean_step].
  - unfold convert_obs13.
    apply clean_bind; [|intros [[o ?] ?] _; clean_scale].
    apply clean_for_each. intros [[o si] gi] sl' Hin.
    repeat first [apply clean_cells13, slot_fuel_ok, P, Hin | clean_step].
Qed.

(** [decode_msm17] never raises, whatever the buffer. *)
Lemma decode_msm17_total bare buf : exists r, decode_msm17 bare buf = Ok r.
Proof.
  unfold decode_msm17. pose proof (clean_bare_decode buf) as C.
  destruct (bare_decode buf) as [b|e].
  - destruct bare; [eauto|]. pose proof (clean_convert (Some b)) as D.
    destruct (convert (Some b)) as [r|e]; [eauto|]. destruct e; cbn in D |- *; eauto; tauto.
  - destruct e; cbn in C |- *; eauto; tauto.
Qed.

(** Length, in bytes, of a frame holding a message of type [t] with the given numbers of
    satellites, signals and cells. *)
Definition columns_width {A} (cols : list (column A)) : Z :=
  fold_right (fun c acc => Z.of_nat (fst (fst c)) + acc) 0 cols.
Definition frame_length (t : msm_type) (nsat nsig ncell : Z) : Z :=
  6 + (169 + nsat * nsig + columns_width (sat_columns t) * nsat
       + columns_width (cell_columns t) * ncell + 7) / 8.

Lemma zlen_columns {A} (items : list A) (cols : list (column A)) :
  zlen (flat_map (column_bits items) cols) = columns_width cols * zlen items.
Proof.
  induction cols as [|[[w sg] get] cols IH]; [reflexivity|].
  cbn [flat_map columns_width fold_right fst]. rewrite zlen_app, IH. unfold column_bits at 1.
  rewrite (zlen_column w (Z.of_nat w) get eq_refl). fold (columns_width cols). lia.
Qed.

Lemma msm_bits_length m : msm_ok m ->
  zlen (msm_bits m) = 169 + zlen (m_rows m) * zlen (m_sigs m)
    + columns_width (sat_columns (m_type m)) * zlen (m_rows m)
    + columns_width (cell_columns (m_type m)) * zlen (m_cells m).
Proof.
  intros (_ & _ & _ & HR & _). unfold msm_bits.
  rewrite !zlen_app, header_len, zlen_cell_bits by exact HR. rewrite !zlen_columns.
  unfold m_sats. rewrite zlen_map. lia.
Qed.

Lemma carries_length buf bits : carries buf bits -> zlen buf = 6 + (zlen bits + 7) / 8.
Proof.
  intros (payload & crc & pad & (-> & _ & LC & _ & _) & E & LP). unfold frame_of.
  rewrite !zlen_app, LC. change (zlen [0xD3; zlen payload / 256; zlen payload mod 256]) with 3.
  pose proof (zlen_bits_of payload) as L. rewrite E, zlen_app in L.
  pose proof (zlen_nonneg pad). lia.
Qed.

(** Whatever is accepted has exactly the announced length. *)
Lemma accepted_length buf payload crc b : transport_frame buf payload crc ->
  bare_decode buf = Ok b ->
  exists m, msm_ok m /\ b = bare_of m /\
    zlen buf = frame_length (m_type m) (zlen (m_rows m)) (zlen (m_sigs m)) (zlen (m_cells m)).
Proof.
  intros TF H. apply (bare_decode_iff _ _ _ _ TF) in H.
  destruct H as (m & OK & NE & P & C & E). exists m. split; [exact OK|]. split; [exact E|].
  rewrite (carries_length _ _ C), (msm_bits_length _ OK). unfold frame_length. reflexivity.
Qed.

(** Frames built for examples: zero padding, any checksum bytes. *)
Definition frame_bits (bits : list bool) (crc : list Z) : list Z := frame_of (pack bits) crc.

Lemma frame_bits_carries bits crc : zlen bits <= 8184 -> zlen crc = 3 -> bytes_ok crc ->
  carries (frame_bits bits crc) bits.
Proof.
  intros L LC BC. exists (pack bits), crc, (repeat false (padlen (length bits))).
  split; [|split].
  - repeat split; [|assumption|apply pack_bytes_ok|assumption]. rewrite zlen_pack. lia.
  - apply bits_of_pack.
  - unfold zlen. rewrite repeat_length. pose proof (padlen_spec (length bits)). lia.
Qed.

(** Header-only messages: every frame with an empty satellite mask is rejected. *)
Lemma header_only_rejected buf m : msm_ok m -> m_rows m = [] -> carries buf (msm_bits m) ->
  bare_decode buf = Err EBareData.
Proof.
  intros OK E C. pose proof (carries_length _ _ C) as LB. rewrite (msm_bits_length _ OK) in LB.
  unfold m_cells in LB. rewrite E in LB. cbn [flat_map] in LB.
  change (zlen (@nil cell_data)) with 0 in LB.
  change (zlen (@nil (sat_data * list (option cell_data)))) with 0 in LB.
  rewrite !Z.mul_0_r, Z.mul_0_l in LB. change (6 + (169 + 0 + 0 + 0 + 7) / 8) with 28 in LB.
  destruct (carries_at _ _ C) as (rest & A & L & ZL & B & _).
  unfold bare_decode. rewrite (get_msg_num_ok _ _ _ A). cbn [bind]. rewrite msm_subset_ok.
  assert (H : extract_hdr buf 24 = Err EBareData).
  { unfold extract_hdr. rewrite L. cbn [bind].
    replace ((zlen (msm_bits m) + 7) / 8) with 22 by lia. reflexivity. }
  rewrite H. destruct (m_type m); reflexivity.
Qed.

Lemma decode_bare_ok buf m : msm_ok m -> msm_nonempty m -> carries buf (msm_bits m) ->
  (passes_length_check m -> decode_msm17 true buf = Ok (Some (MsmBare (bare_of m)))) /\
  (~ passes_length_check m -> decode_msm17 true buf = Ok None).
Proof.
  intros OK NE C. destruct (bare_decode_ok buf m OK NE C) as [Y N]. unfold decode_msm17.
  split; intros P; [rewrite (Y P)|rewrite (N P)]; reflexivity.
Qed.

Lemma other_types_pass m : m_type m <> MSM2 -> m_type m <> MSM3 -> passes_length_check m.
Proof.
  intros A B. unfold passes_length_check, length_check_slack.
  destruct (m_type m); try congruence; f_equal; lia.
Qed.

Lemma decode_bare_iff buf payload crc b : transport_frame buf payload crc ->
  (decode_msm17 true buf = Ok (Some (MsmBare b)) <->
   exists m, msm_ok m /\ msm_nonempty m /\ passes_length_check m /\ carries buf (msm_bits m) /\
             b = bare_of m).
Proof.
  intros TF. rewrite <- (bare_decode_iff _ _ _ _ TF). unfold decode_msm17.
  destruct (bare_decode buf) as [b'|e]; [split; intros H; inversion H; reflexivity|].
  destruct (is_exception e); split; intros; discriminate.
Qed.

(** Nothing is decoded, in either mode, unless the frame carries a message. *)
Lemma decode_some_inv bare buf payload crc r : transport_frame buf payload crc ->
  decode_msm17 bare buf = Ok (Some r) ->
  exists m, msm_ok m /\ msm_nonempty m /\ carries buf (msm_bits m) /\
    zlen buf = frame_length (m_type m) (zlen (m_rows m)) (zlen (m_sigs m)) (zlen (m_cells m)).
Proof.
  intros TF H. unfold decode_msm17 in H.
  destruct (bare_decode buf) as [b|e] eqn:E; [|destruct (is_exception e); discriminate].
  apply (bare_decode_iff _ _ _ _ TF) in E.
  destruct E as (m & OK & NE & P & C & _). exists m. repeat split; try assumption; try apply OK.
  rewrite (carries_length _ _ C), (msm_bits_length _ OK). reflexivity.
Qed.
