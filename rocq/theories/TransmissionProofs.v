(** * TransmissionProofs: from transmitted messages to fields of observation files. *)
From Coq Require Import Ascii String Reals Psatz Lia.
From Flocq Require Import Core BinarySingleNaN.
From Verif Require Import PyBase PyDict PyFloat PyVal FloatProofs BitsSpec BitsProofs MessageSpec DecoderModel DecoderSpec DecoderProofs PropertiesDecoder
  MsmModel MsmSpec MsmScaleSpec MsmConvert MsmConverse MsmScaleTheorems MsmTheorems MsmRange PropertiesMsmScaled MargoModel FormatSpec MargoSpec MargoProofs MargoFiles
  MargoUnits PropertiesMargo PrinterSpec MainSpec MainProofs FramerSpec FramerProofs TransmissionSpec.
Local Open Scope string_scope.
Local Open Scope list_scope.
Local Open Scope Z_scope.

(** ** The cell of a satellite and a signal *)

Lemma is_code_spec g k sgn c : signal_code g k = Some c -> is_code g k sgn = true <-> c = sgn.
Proof. intros E. unfold is_code. rewrite E. apply String.eqb_eq. Qed.

Lemma cell_in_at g sgn : forall sigs codes row before j, codes_of g sigs = Some codes -> NoDup codes ->
  length row = length sigs -> nth_error codes j = Some sgn ->
  cell_in g sgn before sigs row = option_map (pair (before ++ firstn j row)) (nth j row None).
Proof.
  induction sigs as [|k sigs IH]; intros codes row before j E ND L N; cbn [codes_of] in E.
  - injection E as <-. destruct j; discriminate N.
  - destruct (signal_code g k) as [c|] eqn:EC; [|discriminate]. destruct (codes_of g sigs) as [cs|] eqn:ES; [|discriminate].
    injection E as <-. destruct row as [|oc row]; [discriminate L|]. cbn [length] in L. inversion ND as [|? ? NI ND']; subst.
    cbn [cell_in]. destruct (is_code g k sgn) eqn:IC.
    + apply (is_code_spec g k sgn c EC) in IC as ->. destruct j as [|j].
      * cbn [firstn nth]. now rewrite app_nil_r.
      * cbn [nth_error] in N. destruct NI. now apply nth_error_In in N.
    + destruct j as [|j].
      { cbn [nth_error] in N. injection N as N. apply (is_code_spec g k sgn c EC) in N. congruence. }
      cbn [nth_error] in N. rewrite (IH cs row (before ++ [oc]) j eq_refl ND' ltac:(lia) N).
      cbn [firstn nth]. now rewrite <- app_assoc.
Qed.
Lemma cell_in_none g sgn : forall sigs codes row before, codes_of g sigs = Some codes -> ~ In sgn codes ->
  cell_in g sgn before sigs row = None.
Proof.
  induction sigs as [|k sigs IH]; intros codes row before E NI; cbn [codes_of] in E; [reflexivity|].
  destruct (signal_code g k) as [c|] eqn:EC; [|discriminate]. destruct (codes_of g sigs) as [cs|] eqn:ES; [|discriminate].
  injection E as <-. destruct row as [|oc row]; [reflexivity|]. cbn [cell_in].
  destruct (is_code g k sgn) eqn:IC; [apply (is_code_spec g k sgn c EC) in IC; destruct NI; now left|].
  apply (IH cs); [reflexivity|]. intros I. apply NI. now right.
Qed.

Lemma lookup_cell m codes {V} (val : sat_data -> list (option cell_data) -> cell_data -> option V) sgn sat :
  msm_ok m -> codes_of (m_gnss m) (m_sigs m) = Some codes ->
  lookup (table val codes (m_rows m)) sgn sat =
  match cell m sgn sat with Some (b, s, c) => val s b c | None => None end.
Proof.
  intros OK EC. pose proof (sats_nodup m OK) as N2. pose proof (codes_nodup_ok m codes OK EC) as N1. unfold cell.
  destruct (find (fun r => sd_id (fst r) =? sat) (m_rows m)) as [[s row]|] eqn:F.
  - apply find_some in F as (I & E). cbn [fst] in E. apply Z.eqb_eq in E. subst sat.
    assert (L : length row = length (m_sigs m)).
    { destruct OK as (_ & _ & _ & H & _). rewrite Forall_forall in H. exact (H (s, row) I). }
    destruct (in_dec string_dec sgn codes) as [J|J].
    + apply In_nth_error in J as (j & J). rewrite (lookup_table _ codes (m_rows m) j sgn s row N1 N2 J I).
      rewrite (cell_in_at (m_gnss m) sgn (m_sigs m) codes row [] j EC N1 L J). destruct (nth j row None); reflexivity.
    + rewrite (cell_in_none (m_gnss m) sgn (m_sigs m) codes row [] EC J). cbn [option_map].
      destruct (lookup _ sgn (sd_id s)) eqn:X; [|reflexivity]. apply lookup_table_inv in X; [|exact N1].
      destruct X as (j & _ & _ & _ & X & _). destruct J. now apply nth_error_In in X.
  - destruct (lookup _ sgn sat) eqn:X; [|reflexivity]. apply lookup_table_inv in X; [|exact N1].
    destruct X as (j & s & row & c & _ & I & E & _). pose proof (find_none _ _ F _ I) as Q. cbn [fst] in Q. apply Z.eqb_neq in Q. contradiction.
Qed.

Lemma cell_inv m sgn sat b s c : msm_ok m -> cell m sgn sat = Some (b, s, c) ->
  sd_id s = sat /\ sat_fits (m_type m) s /\ cell_fits (m_type m) c /\ In s (m_sats m).
Proof.
  intros OK H. unfold cell in H. destruct (find _ _) as [[s' row]|] eqn:F; [|discriminate].
  destruct (cell_in _ _ _ _ _) as [[b' c']|] eqn:CI; [|discriminate]. cbn in H. injection H as <- <- <-.
  apply find_some in F as (I & E). cbn [fst] in E. apply Z.eqb_eq in E.
  split; [exact E|]. split; [exact (row_fits m s' row OK I)|]. split.
  - assert (In (Some c') row).
    { revert CI. generalize (@nil (option cell_data)). generalize (m_sigs m). clear. intros sigs. revert row.
      induction sigs as [|k sigs IH]; intros row before H; [discriminate|]. destruct row as [|oc row]; [discriminate|]. cbn [cell_in] in H.
      destruct (is_code _ _ _); [destruct oc; [|discriminate]; injection H as <- <-; now left|right; eapply IH; exact H]. }
    apply In_nth_error in H as (j & J). exact (row_cell_fits m s' row j c' OK I J).
  - unfold m_sats. change s' with (fst (s', row)). now apply in_map.
Qed.

(** A signal is in a dictionary exactly if some satellite of the message has a value. *)
Lemma has_table m codes {V} (val : sat_data -> list (option cell_data) -> cell_data -> option V) sgn :
  msm_ok m -> codes_of (m_gnss m) (m_sigs m) = Some codes ->
  match sget (table val codes (m_rows m)) sgn with Some _ => true | None => false end =
  existsb (fun s => match lookup (table val codes (m_rows m)) sgn (sd_id s) with Some _ => true | None => false end) (m_sats m).
Proof.
  intros OK EC. symmetry. destruct (sget (table val codes (m_rows m)) sgn) as [inner|] eqn:E.
  - pose proof E as E0. unfold sget in E. apply (dget_In _ string_eqb_spec) in E. unfold table in E. apply filter_In in E as (E & NE). cbn [snd] in NE.
    destruct inner as [|[sat v] inner]; [discriminate NE|]. clear NE.
    assert (LK : lookup (table val codes (m_rows m)) sgn sat = Some v).
    { unfold lookup. rewrite E0. unfold zget. cbn [dget]. now rewrite Z.eqb_refl. }
    pose proof LK as LK0. apply lookup_table_inv in LK; [|exact (codes_nodup_ok m codes OK EC)].
    destruct LK as (j & s & row & c & _ & I & <- & _). apply existsb_exists. exists s. rewrite LK0. split; [|reflexivity].
    unfold m_sats. change s with (fst (s, row)). now apply in_map.
  - induction (m_sats m) as [|s l IH]; [reflexivity|]. cbn [existsb]. rewrite IH. unfold lookup. now rewrite E.
Qed.

(** ** Accuracy of the single values *)
Local Open Scope R_scope.

Lemma rough_known_ms t s : rough_known t s = match rough_ms t s with Some _ => true | None => false end.
Proof. unfold rough_known, rough_ms. destruct t; try reflexivity; destruct (sd_ms s =? 255)%Z; reflexivity. Qed.

Lemma rough_same t s : rough_exact t s = rough_value t s.
Proof. unfold rough_exact, rough_value. destruct t; lra. Qed.
Lemma metres_same a b : metres_exact a b = to_metres (a + b).
Proof. unfold metres_exact, to_metres, light. lra. Qed.

Lemma code_sent t s c : code_range t s c = None <-> has_range t && rough_known t s && negb (range_invalid t c) = false.
Proof.
  rewrite rough_known_ms. unfold code_range. destruct (rough_ms t s), (has_range t), (range_invalid t c); cbn; split; congruence.
Qed.
Lemma phase_sent t s c : phase_range t s c = None <-> has_phase t && rough_known t s && negb (phase_invalid t c) = false.
Proof.
  rewrite rough_known_ms. unfold phase_range. destruct (rough_ms t s), (has_phase t), (phase_invalid t c); cbn; split; congruence.
Qed.

Definition close (x : flt) (r : R) : Prop := is_finite_SF x = true /\ Rabs (SF2R radix2 x - r) <= 2 / 1000000.

Lemma bound_fits w z : fits_s w z -> Rabs (IZR z) <= IZR (2 ^ (Z.of_nat w - 1)).
Proof. intros H. unfold fits_s in H. rewrite <- abs_IZR. apply IZR_le. lia. Qed.

Lemma code_close t s c x : sat_fits t s -> cell_fits t c -> code_range t s c = Some x ->
  close x (to_metres (rough_value t s + IZR (cd_rng c) / 2 ^ (if extended t then 29 else 24))).
Proof.
  intros S C H. destruct (code_range_accurate t s c x S C H) as (r & (_ & F & E) & B). split; [exact F|]. rewrite E.
  rewrite metres_same, rough_same in B. unfold code_resolution in B.
  replace (IZR (cd_rng c) / 2 ^ (if extended t then 29 else 24)) with (IZR (cd_rng c) * (if extended t then / 2 ^ 29 else / 2 ^ 24)) by (destruct (extended t); reflexivity).
  lra.
Qed.

Lemma phase_val t s c x : sat_fits t s -> cell_fits t c -> phase_range t s c = Some x ->
  is_val x (SF2R radix2 x) /\ Rabs (SF2R radix2 x) < 2 ^ 27 /\
  Rabs (SF2R radix2 x - to_metres (rough_value t s + IZR (cd_phs c) / 2 ^ (if extended t then 31 else 29))) < 2 / 10 ^ 8.
Proof.
  intros S C H. destruct (phase_range_accurate t s c x S C H) as (r & V & B). pose proof V as (_ & _ & E). rewrite E in *. split; [exact V|].
  rewrite metres_same, rough_same in B. unfold phase_resolution in B.
  replace (IZR (cd_phs c) / 2 ^ (if extended t then 31 else 29)) with (IZR (cd_phs c) * (if extended t then / 2 ^ 31 else / 2 ^ 29)) by (destruct (extended t); reflexivity).
  split; [|exact B].
  assert (RB : 0 <= rough_value t s <= 257).
  { unfold phase_range in H. destruct (rough_ms t s) as [ro|] eqn:ER; [|discriminate].
    destruct (rough_ok t s ro S ER) as (a & A1 & A2 & Q). rewrite <- rough_same, Q.
    assert (IZR 0 <= IZR a <= IZR (255 * 1024)) by (split; apply IZR_le; lia). change (IZR (255 * 1024)) with 261120 in H0. lra. }
  assert (FB : Rabs (IZR (cd_phs c) * (if extended t then / 2 ^ 31 else / 2 ^ 29)) <= 1).
  { unfold cell_fits in C. rewrite Forall_forall in C.
    assert (PH : has_phase t = true) by (unfold phase_range in H; destruct (rough_ms t s), (has_phase t); [reflexivity|discriminate..]).
    assert (BD : Rabs (IZR (cd_phs c)) <= 8388608).
    { destruct t; try discriminate PH; cbn [cell_columns In] in C;
      first [assert (X : fits (22%nat, Signed, cd_phs) c) by (apply C; tauto) | assert (X : fits (24%nat, Signed, cd_phs) c) by (apply C; tauto)];
      unfold fits in X; apply bound_fits in X; cbn in X; lra. }
    rewrite Rabs_mult, (Rabs_pos_eq (if extended t then _ else _)) by (destruct (extended t); apply Rlt_le, Rinv_0_lt_compat; lra).
    assert ((if extended t then / 2 ^ 31 else / 2 ^ 29) <= / 8388608) by (destruct (extended t); apply Rinv_le; lra).
    assert (0 <= (if extended t then / 2 ^ 31 else / 2 ^ 29)) by (destruct (extended t); apply Rlt_le, Rinv_0_lt_compat; lra).
    pose proof (Rabs_pos (IZR (cd_phs c))). apply Rle_trans with (8388608 * / 8388608); [|lra]. apply Rmult_le_compat; lra. }
  unfold to_metres, light in B. apply Rabs_def2 in B. unfold Rabs in FB. destruct (Rcase_abs _); apply Rabs_def1; lra.
Qed.

Lemma hertz_bound ctl g sgn sat : controls_ok ctl -> known g sgn -> (1 <= sat <= slots g)%Z ->
  0 <= IZR (hertz ctl g sgn sat) / light <= 10.
Proof.
  intros C K S. pose proof (wave_close_ok ctl g sgn sat C K S) as W. change (carrier_hz ctl g sgn sat) with (hertz ctl g sgn sat) in W.
  destruct (wave_close_R _ _ W) as (w & _ & LB & E). unfold light_speed in E. change (bpow radix2 (-51)) with (/ 2251799813685248) in E.
  set (h := IZR (hertz ctl g sgn sat)) in *. clearbody h. unfold light. apply Rabs_le_inv in E.
  assert (0 < h) by nra.
  assert (h <= 10 * 299792458) by nra. split; [apply Rmult_le_pos; lra|lra].
Qed.

Lemma phase_close ctl g o sgn sat t s c x : controls_ok ctl -> known g sgn -> (1 <= sat <= slots g)%Z -> sd_id s = sat ->
  sat_fits t s -> cell_fits t c -> phase_range t s c = Some x -> lookup (o_phs o) sgn sat = Some x ->
  (half_cycle_enable ctl = true \/ ambiguous o sgn sat = false) ->
  exists y, cell_of ctl g o Phase sgn sat = Some y /\
    close y (to_metres (rough_value t s + IZR (cd_phs c) / 2 ^ (if extended t then 31 else 29)) * (IZR (hertz ctl g sgn (sd_id s)) / light)).
Proof.
  intros C K R ID S F P L A. destruct (phase_val t s c x S F P) as (V & B & E).
  destruct (C45_phase_cycles ctl g o sgn sat x C K R L A V B) as (y & Y & FY & EY). exists y. split; [exact Y|]. split; [exact FY|].
  change (carrier_hz ctl g sgn sat) with (hertz ctl g sgn sat) in EY. rewrite ID.
  pose proof (hertz_bound ctl g sgn sat C K R) as HB. change (IZR 299792458) with light in EY.
  set (h := IZR (hertz ctl g sgn sat)) in *. set (X := SF2R radix2 x) in *. set (Y' := SF2R radix2 y) in *. set (T := to_metres _) in *.
  replace (Y' - T * (h / light)) with ((Y' - X * h / light) + (X - T) * (h / light)) by (unfold light; field).
  eapply Rle_trans; [apply Rabs_triang|]. rewrite Rabs_mult, (Rabs_pos_eq (h / light)) by lra.
  assert (Rabs (X - T) * (h / light) <= 2 / 10 ^ 8 * 10) by (apply Rmult_le_compat; try lra; apply Rabs_pos). lra.
Qed.

(** Products of an integer and a decimal literal 10^-k, k = 3, 4. *)
Lemma lit_near k : (k = 3 \/ k = 4)%Z -> exists d, is_val (dec_lit 1 k) d /\ Rabs (d - / IZR (10 ^ k)) <= bpow radix2 (-60).
Proof.
  intros K. pose proof (f_of_int_exact 1 ltac:(lia)) as A. assert (D : dyadic (f_of_int (10 ^ k)) (10 ^ k) 0) by (apply f_of_int_exact; destruct K as [-> | ->]; lia).
  unfold dyadic in A, D. change (bpow radix2 0) with 1 in A, D. rewrite Rmult_1_r in A, D.
  assert (P : 1000 <= IZR (10 ^ k)) by (destruct K as [-> | ->]; cbn; lra).
  assert (BD : Rabs (1 / IZR (10 ^ k)) < bpow radix2 (-6)).
  { rewrite Rabs_pos_eq by (apply Rlt_le, Rdiv_lt_0_compat; lra). change (bpow radix2 (-6)) with (/ 64). unfold Rdiv. rewrite Rmult_1_l. apply Rinv_lt_contravar; nra. }
  destruct (rnd_error _ (-6) ltac:(lia) BD) as (E1 & E2). exists (rnd (1 / IZR (10 ^ k))). split; [exact (div_val _ _ _ _ A D ltac:(lra) E2)|].
  replace (/ IZR (10 ^ k)) with (1 / IZR (10 ^ k)) by (unfold Rdiv; lra). exact E1.
Qed.

Lemma scaled_near z k : (Z.abs z <= 2 ^ 27)%Z -> (k = 3 \/ k = 4)%Z ->
  exists r, is_val (f_mul (f_of_int z) (dec_lit 1 k)) r /\ Rabs (r - IZR z / IZR (10 ^ k)) <= bpow radix2 (-26).
Proof.
  intros B K. destruct (lit_near k K) as (d & V & D). pose proof (f_of_int_exact z ltac:(lia)) as A. unfold dyadic in A.
  change (bpow radix2 0) with 1 in A. rewrite Rmult_1_r in A.
  assert (ZB : Rabs (IZR z) <= 134217728) by (rewrite <- abs_IZR; apply (IZR_le _ 134217728); lia).
  change (bpow radix2 (-60)) with (/ 1152921504606846976) in D.
  assert (DB : Rabs d <= 1 / 900).
  { assert (0 < / IZR (10 ^ k) <= / 1000).
    { destruct K as [-> | ->]; cbn; lra. }
    apply Rabs_le_inv in D. apply Rabs_le. lra. }
  assert (PB : Rabs (IZR z * d) < bpow radix2 18).
  { rewrite Rabs_mult. change (bpow radix2 18) with 262144. pose proof (Rabs_pos (IZR z)). pose proof (Rabs_pos d). nra. }
  destruct (rnd_error _ 18 ltac:(lia) PB) as (E1 & E2). exists (rnd (IZR z * d)). split; [exact (mul_val _ _ _ _ A V E2)|].
  replace (rnd (IZR z * d) - IZR z / IZR (10 ^ k)) with ((rnd (IZR z * d) - IZR z * d) + IZR z * (d - / IZR (10 ^ k))) by (unfold Rdiv; lra).
  eapply Rle_trans; [apply Rabs_triang|]. rewrite (Rabs_mult (IZR z)). change (bpow radix2 (18 - 54)) with (/ 68719476736) in E1. change (bpow radix2 (-26)) with (/ 67108864).
  pose proof (Rabs_pos (IZR z)). pose proof (Rabs_pos (d - / IZR (10 ^ k))).
  assert (Rabs (IZR z) * Rabs (d - / IZR (10 ^ k)) <= 134217728 * / 1152921504606846976) by (apply Rmult_le_compat; lra). lra.
Qed.

Lemma rate_val t s c x : sat_fits t s -> cell_fits t c -> phase_rate t s c = Some x ->
  is_val x (SF2R radix2 x) /\ Rabs (SF2R radix2 x) < 2 ^ 14 /\
  Rabs (SF2R radix2 x - (IZR (sd_rate s) + IZR (cd_rate c) / 10000)) <= / 10000000.
Proof.
  intros S C H. unfold phase_rate in H. destruct (has_rate t) eqn:HR; [|discriminate]. destruct (marks_invalid 14 (sd_rate s)) eqn:M1; [discriminate|].
  destruct (marks_invalid 15 (cd_rate c)); [discriminate|]. cbn [negb andb] in H. injection H as <-.
  assert (FS : fits_s 14 (sd_rate s)) by (unfold sat_fits in S; rewrite Forall_forall in S; destruct t; try discriminate HR; apply (S (14%nat, Signed, sd_rate)); cbn; tauto).
  assert (FC : fits_s 15 (cd_rate c)) by (unfold cell_fits in C; rewrite Forall_forall in C; destruct t; try discriminate HR; apply (C (15%nat, Signed, cd_rate)); cbn; tauto).
  pose proof (bound_fits _ _ FS) as BS. pose proof (bound_fits _ _ FC) as BC. cbn in BS, BC. unfold fits_s in FS, FC. cbn in FS, FC.
  destruct (scaled_near (cd_rate c) 4 ltac:(lia) ltac:(auto)) as (r & V & E). change (IZR (10 ^ 4)) with 10000 in E. change (bpow radix2 (-26)) with (/ 67108864) in E.
  pose proof (f_of_int_exact (sd_rate s) ltac:(lia)) as A. unfold dyadic in A. change (bpow radix2 0) with 1 in A. rewrite Rmult_1_r in A.
  assert (RB : Rabs r <= 2). { apply Rabs_le_inv in E, BC. apply Rabs_le. lra. }
  assert (SB : Rabs (IZR (sd_rate s) + r) < bpow radix2 14).
  { change (bpow radix2 14) with 16384. eapply Rle_lt_trans; [apply Rabs_triang|]. lra. }
  destruct (rnd_error _ 14 ltac:(lia) SB) as (E1 & E2). destruct (add_val _ _ _ _ A V E2) as (V1 & V2 & V3).
  split; [repeat split; assumption|]. rewrite V3. change (bpow radix2 (14 - 54)) with (/ 1099511627776) in E1.
  apply Rabs_le_inv in E, E1, RB, BS. split; [apply Rabs_def1; lra|apply Rabs_le; lra].
Qed.

Lemma rate_close ctl g o sgn sat t s c x : controls_ok ctl -> known g sgn -> (1 <= sat <= slots g)%Z -> sd_id s = sat ->
  sat_fits t s -> cell_fits t c -> phase_rate t s c = Some x -> lookup (o_dpl o) sgn sat = Some x ->
  exists y, cell_of ctl g o Doppler sgn sat = Some y /\
    close y (- (IZR (sd_rate s) + IZR (cd_rate c) / 10000) * (IZR (hertz ctl g sgn (sd_id s)) / light)).
Proof.
  intros C K R ID S F P L. destruct (rate_val t s c x S F P) as (V & B & E).
  destruct (C45_doppler_hz ctl g o sgn sat x C K R L V B) as (y & Y & FY & EY). exists y. split; [exact Y|]. split; [exact FY|].
  change (carrier_hz ctl g sgn sat) with (hertz ctl g sgn sat) in EY. rewrite ID.
  pose proof (hertz_bound ctl g sgn sat C K R) as HB. change (IZR 299792458) with light in EY.
  set (h := IZR (hertz ctl g sgn sat)) in *. set (X := SF2R radix2 x) in *. set (Y' := SF2R radix2 y) in *. set (T := IZR (sd_rate s) + _) in *.
  replace (Y' - - T * (h / light)) with ((Y' - - X * h / light) + - (X - T) * (h / light)) by (unfold light; field).
  eapply Rle_trans; [apply Rabs_triang|]. rewrite Rabs_mult, Rabs_Ropp, (Rabs_pos_eq (h / light)) by lra.
  assert (Rabs (X - T) * (h / light) <= / 10000000 * 10) by (apply Rmult_le_compat; try lra; apply Rabs_pos). lra.
Qed.

Lemma cnr_val t c : cell_fits t c -> has_cnr t = true -> is_val (cnr_dbhz t c) (IZR (cd_cnr c) / (if extended t then 16 else 1)).
Proof.
  intros C H. assert (B : (0 <= cd_cnr c < 1024)%Z).
  { unfold cell_fits in C. rewrite Forall_forall in C. destruct t; try discriminate H; cbn [cell_columns In] in C;
    first [assert (X : fits (6%nat, Unsigned, cd_cnr) c) by (apply C; tauto) | assert (X : fits (10%nat, Unsigned, cd_cnr) c) by (apply C; tauto)];
    unfold fits, fits_u in X; cbn in X; lia. }
  pose proof (f_of_int_exact (cd_cnr c) ltac:(lia)) as A. unfold cnr_dbhz.
  destruct (extended t).
  - pose proof (mul_exact _ _ _ _ _ _ A (f_pow2_exact (-4) ltac:(lia)) ltac:(lia) ltac:(lia)) as X. unfold dyadic in X. rewrite Z.mul_1_r in X.
    change (bpow radix2 (0 + -4)) with (/ 16) in X. exact X.
  - pose proof (mul_exact _ _ _ _ _ _ A (f_of_int_exact 1 ltac:(lia)) ltac:(lia) ltac:(lia)) as X. unfold dyadic in X. rewrite Z.mul_1_r in X.
    change (bpow radix2 (0 + 0)) with 1 in X. replace (IZR (cd_cnr c) / 1) with (IZR (cd_cnr c) * 1) by field. exact X.
Qed.
Lemma cnr_close t c : cell_fits t c -> has_cnr t = true -> close (cnr_dbhz t c) (IZR (cd_cnr c) / (if extended t then 16 else 1)).
Proof.
  intros C H. destruct (cnr_val t c C H) as (_ & F & E). split; [exact F|]. rewrite E. replace (_ - _) with 0 by ring. rewrite Rabs_R0. lra.
Qed.

Lemma lock_bound t c : cell_fits t c -> has_phase t = true -> (0 <= lock_ms t (cd_lock c) <= 2 ^ 26)%Z.
Proof.
  intros C H. unfold cell_fits in C. rewrite Forall_forall in C. unfold lock_ms. destruct (extended t) eqn:X.
  - assert (B : fits (10%nat, Unsigned, cd_lock) c) by (destruct t; try discriminate X; apply C; cbn; tauto). unfold fits, fits_u in B. cbn in B.
    assert (G : forallb (fun i => (0 <=? df407_ms i) && (df407_ms i <=? 2 ^ 26))%Z (zrange 0 1024) = true) by (vm_compute; reflexivity).
    rewrite forallb_forall in G. specialize (G (cd_lock c) ltac:(apply zrange_In; lia)). apply andb_prop in G. lia.
  - assert (B : fits (4%nat, Unsigned, cd_lock) c) by (destruct t; try discriminate X; try discriminate H; apply C; cbn; tauto). unfold fits, fits_u in B. cbn in B.
    assert (G : forallb (fun i => (0 <=? df402_ms i) && (df402_ms i <=? 2 ^ 26))%Z (zrange 0 16) = true) by (vm_compute; reflexivity).
    rewrite forallb_forall in G. specialize (G (cd_lock c) ltac:(apply zrange_In; lia)). apply andb_prop in G. lia.
Qed.
Lemma lock_close z : (0 <= z <= 2 ^ 26)%Z -> close (f_mul (f_of_int z) (dec_lit 1 3)) (IZR z / 1000).
Proof.
  intros B. destruct (scaled_near z 3 ltac:(lia) ltac:(auto)) as (r & (_ & F & E) & X). split; [exact F|]. rewrite E.
  change (IZR (10 ^ 3)) with 1000 in X. change (bpow radix2 (-26)) with (/ 67108864) in X. lra.
Qed.
Lemma half_close (b : bool) : close (f_of_int (if b then 1 else 0)) (if b then 1 else 0).
Proof.
  assert (X : dyadic (f_of_int (if b then 1 else 0)) (if b then 1 else 0) 0) by (apply f_of_int_exact; destruct b; lia).
  destruct X as (_ & F & E). split; [exact F|]. rewrite E. change (bpow radix2 0) with 1. destruct b; rewrite Rmult_1_r, Rminus_diag_eq by reflexivity; rewrite Rabs_R0; lra.
Qed.

(** ** Columns *)
Definition agree (x : option flt) (r : option R) : Prop :=
  match x, r with None, None => True | Some x, Some r => close x r | _, _ => False end.

Lemma blocked_phase t s b c : rep_phs t s b c = None <->
  has_phase t && rough_known t s && negb (phase_invalid t c) && negb (blocked t b c) = false.
Proof.
  unfold rep_phs. destruct (blocked t b c); cbn [negb].
  - rewrite Bool.andb_false_r. split; reflexivity.
  - rewrite Bool.andb_true_r. apply phase_sent.
Qed.
Lemma cnr_phase t : has_cnr t = true -> has_phase t = true.
Proof. destruct t; easy. Qed.

Lemma column_agrees ctl m codes p sgn sat : controls_ok ctl -> msm_ok m -> codes_of (m_gnss m) (m_sigs m) = Some codes ->
  known (m_gnss m) sgn -> (1 <= sat <= slots (m_gnss m))%Z ->
  agree (cell_of ctl (m_gnss m) (scaled_obs m codes) p sgn sat) (column_value ctl m p sgn sat).
Proof.
  intros C OK EC K R. set (t := m_type m). set (o := scaled_obs m codes).
  assert (LC : forall (V : Type) (val : sat_data -> list (option cell_data) -> cell_data -> option V),
    lookup (table val codes (m_rows m)) sgn sat = match cell m sgn sat with Some (b, s, c) => val s b c | None => None end)
    by (intros V val; exact (lookup_cell m codes val sgn sat OK EC)).
  unfold column_value, reading, resolved.
  destruct (cell m sgn sat) as [[[b s] c]|] eqn:CE.
  2:{ assert (N : forall V (val : sat_data -> list (option cell_data) -> cell_data -> option V), lookup (table val codes (m_rows m)) sgn sat = None) by (intros; apply LC).
      assert (X : cell_of ctl (m_gnss m) o p sgn sat = None).
      { unfold o, cell_of. cbn [scaled_obs o_rng o_phs o_ltm o_hca o_dpl o_c2n]. destruct p; rewrite ?N; try reflexivity. destruct (negb _ && _); reflexivity. }
      rewrite X. destruct p; try exact I. destruct (half_cycle_enable ctl || true); exact I. }
  destruct (cell_inv m sgn sat b s c OK CE) as (ID & SF & CF & _). fold t in SF, CF.
  destruct p; unfold measurement; cbv zeta; fold t.
  - cbn [cell_of]. unfold o. cbn [scaled_obs o_rng]. rewrite LC. fold t. unfold rep_rng.
    destruct (code_range t s c) as [x|] eqn:E.
    + destruct (has_range t && rough_known t s && negb (range_invalid t c)) eqn:Q; [exact (code_close t s c x SF CF E)|].
      apply code_sent in Q. congruence.
    + apply code_sent in E. now rewrite E.
  - (* phase *)
    assert (LP : lookup (o_phs o) sgn sat = rep_phs t s b c) by (unfold o; cbn [scaled_obs o_phs]; now rewrite LC).
    assert (LH : lookup (o_hca o) sgn sat = rep_hca t s b c) by (unfold o; cbn [scaled_obs o_hca]; now rewrite LC).
    destruct (rep_phs t s b c) as [x|] eqn:E.
    + assert (Q : has_phase t && rough_known t s && negb (phase_invalid t c) && negb (blocked t b c) = true).
      { destruct (_ && negb (blocked t b c)) eqn:Q; [reflexivity|]. apply blocked_phase in Q. congruence. }
      rewrite Q.
      assert (AM : ambiguous o sgn sat = negb (cd_half c =? 0)%Z).
      { unfold rep_hca in LH. rewrite E in LH. assert (LH' : lookup (o_hca o) sgn sat = Some (negb (cd_half c =? 0)%Z)) by (destruct (has_cnr t); exact LH).
        unfold lookup in LH'. unfold ambiguous. destruct (sget (o_hca o) sgn) as [h|]; [|discriminate]. rewrite LH'. destruct (cd_half c =? 0)%Z; reflexivity. }
      destruct (half_cycle_enable ctl || (cd_half c =? 0)%Z) eqn:A.
      * assert (PR : phase_range t s c = Some x) by (unfold rep_phs in E; destruct (blocked t b c); [discriminate|exact E]).
        destruct (phase_close ctl (m_gnss m) o sgn sat t s c x C K R ID SF CF PR LP) as (y & Y & CL).
        { destruct (half_cycle_enable ctl); [now left|right]. rewrite AM. cbn in A. now rewrite A. }
        rewrite Y. exact CL.
      * cbn [cell_of]. rewrite AM. destruct (half_cycle_enable ctl); [discriminate A|]. cbn in A. rewrite A. exact I.
    + apply blocked_phase in E. rewrite E. cbn [cell_of]. rewrite LP. destruct (negb _ && _); destruct (half_cycle_enable ctl || _); exact I.
  - assert (LD : lookup (o_dpl o) sgn sat = phase_rate t s c) by (unfold o; cbn [scaled_obs o_dpl]; now rewrite LC).
    destruct (phase_rate t s c) as [x|] eqn:E.
    + destruct (rate_close ctl (m_gnss m) o sgn sat t s c x C K R ID SF CF E LD) as (y & Y & CL). rewrite Y.
      unfold phase_rate in E. destruct (has_rate t && _ && _); [exact CL|discriminate].
    + cbn [cell_of]. rewrite LD. unfold phase_rate in E. destruct (has_rate t && _ && _); [discriminate|exact I].
  - cbn [cell_of]. unfold o. cbn [scaled_obs o_c2n]. rewrite LC. fold t. unfold rep_c2n. destruct (has_cnr t) eqn:H; [|exact I]. exact (cnr_close t c CF H).
  - cbn [cell_of]. unfold o. cbn [scaled_obs o_ltm]. rewrite LC. fold t. unfold rep_ltm. destruct (has_cnr t) eqn:H; cbn [orb].
    + cbn [option_map agree]. apply lock_close, lock_bound; [exact CF|now apply cnr_phase].
    + destruct (rep_phs t s b c) as [x|] eqn:E.
      * destruct (_ && negb (blocked t b c)) eqn:Q; [|apply blocked_phase in Q; congruence]. cbn [option_map agree]. apply lock_close, lock_bound; [exact CF|].
        repeat (apply andb_prop in Q as (Q & _)). exact Q.
      * apply blocked_phase in E. now rewrite E.
  - cbn [cell_of]. unfold o. cbn [scaled_obs o_hca]. rewrite LC. fold t. unfold rep_hca.
    assert (HC : close (f_of_int (if negb (cd_half c =? 0)%Z then 1 else 0)) (if (cd_half c =? 0)%Z then 0 else 1)).
    { pose proof (half_close (negb (cd_half c =? 0)%Z)) as X. destruct (cd_half c =? 0)%Z; exact X. }
    destruct (has_cnr t) eqn:H; cbn [orb]; [exact HC|].
    destruct (rep_phs t s b c) as [x|] eqn:E.
    + destruct (_ && negb (blocked t b c)) eqn:Q; [exact HC|apply blocked_phase in Q; congruence].
    + apply blocked_phase in E. now rewrite E.
Qed.

(** ** Rows *)
Lemma contributes_row ctl m codes p sgn : msm_ok m -> codes_of (m_gnss m) (m_sigs m) = Some codes ->
  contributes ctl (scaled_obs m codes) p sgn =
  wanted ctl p && existsb (fun s => match reading ctl m p sgn (sd_id s) with Some _ => true | None => false end) (m_sats m).
Proof.
  intros OK EC.
  assert (G : forall (V : Type) (val : sat_data -> list (option cell_data) -> cell_data -> option V),
    (forall s b c, match val s b c with Some _ => true | None => false end =
                   match measurement ctl (m_gnss m) (m_type m) p sgn b s c with Some _ => true | None => false end) ->
    match sget (table val codes (m_rows m)) sgn with Some _ => true | None => false end =
    existsb (fun s => match reading ctl m p sgn (sd_id s) with Some _ => true | None => false end) (m_sats m)).
  { intros V val H. rewrite (has_table m codes val sgn OK EC).
    induction (m_sats m) as [|s l IH]; [reflexivity|]. cbn [existsb]. rewrite IH. f_equal. rewrite (lookup_cell m codes val sgn (sd_id s) OK EC). unfold reading.
    destruct (cell m sgn (sd_id s)) as [[[b s'] c]|]; [apply H|reflexivity]. }
  assert (PB : forall s b c, match rep_phs (m_type m) s b c with Some _ => true | None => false end =
    has_phase (m_type m) && rough_known (m_type m) s && negb (phase_invalid (m_type m) c) && negb (blocked (m_type m) b c)).
  { intros s b c. destruct (rep_phs (m_type m) s b c) eqn:E.
    - destruct (_ && negb (blocked _ b c)) eqn:Q; [reflexivity|]. apply blocked_phase in Q. congruence.
    - apply blocked_phase in E. now rewrite E. }
  unfold contributes. cbv zeta. destruct p; cbn [wanted andb]; cbn [scaled_obs o_rng o_phs o_ltm o_hca o_dpl o_c2n].
  1-4: apply G; intros s b c; unfold measurement; cbv zeta.
  5,6: f_equal; apply G; intros s b c; unfold measurement; cbv zeta; specialize (PB s b c).
  - unfold rep_rng. destruct (code_range _ s c) eqn:E.
    + destruct (_ && negb (range_invalid _ c)) eqn:Q; [reflexivity|]. apply code_sent in Q. congruence.
    + apply code_sent in E. now rewrite E.
  - rewrite PB. destruct (_ && negb (blocked _ b c)); reflexivity.
  - unfold rep_dpl, phase_rate. destruct (_ && _ && _); reflexivity.
  - unfold rep_c2n. destruct (has_cnr _); reflexivity.
  - unfold rep_ltm. destruct (has_cnr _); [reflexivity|]. cbn [orb]. rewrite <- PB. destruct (rep_phs _ s b c); reflexivity.
  - unfold rep_hca. destruct (has_cnr _); [reflexivity|]. cbn [orb]. rewrite <- PB. destruct (rep_phs _ s b c); reflexivity.
Qed.

Lemma shows_agree w k x r f : agree x r -> shows_cell w k x f -> shows_value w k r f.
Proof.
  destruct x as [x|], r as [r|]; cbn [agree shows_cell shows_value]; try easy.
  intros (F & E). rewrite F. intros (t & n & P & D & B). exists t, n. split; [exact P|]. split; [exact D|].
  replace (IZR n / IZR (10 ^ k) - r) with (- (SF2R radix2 x - IZR n / IZR (10 ^ k)) + (SF2R radix2 x - r)) by ring.
  eapply Rle_trans; [apply Rabs_triang|]. rewrite Rabs_Ropp. lra.
Qed.

(** ** Headers *)
Definition mhz_close (w : flt) (hz : Z) : bool :=
  match w with
  | S754_finite false m e =>
      ((e <? 0) && (-200 <? e) && (Z.abs (Zpos m * 1000000 - hz * 2 ^ (- e)) <=? 2 ^ (- e)))%Z
  | _ => false
  end.
Lemma mhz_close_ok w hz : mhz_close w hz = true -> close w (IZR hz / 1000000).
Proof.
  intros H. destruct w as [s|s| |[] m e]; try discriminate H. unfold mhz_close in H. apply andb_prop in H as (H & B). apply andb_prop in H as (H1 & _).
  apply Z.ltb_lt in H1. apply Z.leb_le in B. split; [reflexivity|]. cbn [SF2R cond_Zopp]. unfold F2R. cbn [Fnum Fexp].
  assert (P : bpow radix2 e = / IZR (2 ^ (- e))).
  { replace e with (- (- e))%Z at 1 by lia. rewrite bpow_opp. f_equal. symmetry. apply (IZR_Zpower radix2). lia. }
  assert (Q : 0 < IZR (2 ^ (- e))) by (apply IZR_lt; apply Z.pow_pos_nonneg; lia).
  apply IZR_le in B. rewrite abs_IZR, minus_IZR, !mult_IZR in B. rewrite P. set (q := IZR (2 ^ (- e))) in *. clearbody q.
  replace (IZR (Z.pos m) * / q - IZR hz / 1000000) with ((IZR (Z.pos m) * 1000000 - IZR hz * q) * (/ q * / 1000000)) by (field; lra).
  assert (0 < / q) by (apply Rinv_0_lt_compat; lra). assert (0 < / q * / 1000000) by (apply Rmult_lt_0_compat; lra).
  rewrite Rabs_mult, (Rabs_pos_eq (/ q * / 1000000)) by lra.
  apply Rle_trans with (q * (/ q * / 1000000)); [apply Rmult_le_compat_r; lra|]. replace (q * (/ q * / 1000000)) with (/ 1000000) by (field; lra). lra.
Qed.
Lemma nominal_close g sgn : known g sgn -> close (carrier g sgn) (IZR (band_hz g sgn) / 1000000).
Proof.
  intros K. apply mhz_close_ok. assert (G : forallb (fun g => forallb (fun c => mhz_close (carrier g c) (band_hz g c)) (map snd (signal_codes g)))
    [GPS; GLO; GAL; SBAS; QZSS; BDS; NAVIC] = true) by (vm_compute; reflexivity).
  rewrite forallb_forall in G. specialize (G g ltac:(destruct g; cbn; tauto)). rewrite forallb_forall in G. exact (G sgn K).
Qed.
Lemma carrier_close ctl g sgn sat : controls_ok ctl -> known g sgn -> (1 <= sat <= slots g)%Z ->
  close (sat_carrier ctl g sgn sat) (IZR (hertz ctl g sgn sat) / 1000000).
Proof.
  intros C K R. destruct g; try exact (nominal_close _ sgn K). apply mhz_close_ok. unfold sat_carrier, hertz.
  pose proof (controls_lit ctl sat C R) as (_ & B). set (k := glo_channel ctl sat) in *. clearbody k.
  assert (G : forallb (fun c => forallb (fun k => mhz_close (f_add (carrier GLO c) (f_mul (match c with String "1"%char _ => dec_lit 5625 4 | _ => dec_lit 4375 4 end) (f_of_int k)))
       (band_hz GLO c + k * match c with String "1"%char _ => 562500 | _ => 437500 end)) (zrange (-1000) 1001))
     (map snd (signal_codes GLO)) = true) by (vm_compute; reflexivity).
  rewrite forallb_forall in G. specialize (G sgn K). rewrite forallb_forall in G. apply (G k). apply zrange_In. lia.
Qed.
Lemma shows_close w k x r f : close x r -> shows w k x f -> shows_value w k (Some r) f.
Proof. intros C S. apply (shows_agree w k (Some x) (Some r) f C). cbn [shows_cell]. rewrite (proj1 C). exact S. Qed.

Lemma Forall2_impl_in {A B} (P Q : A -> B -> Prop) l m : (forall a b, In a l -> P a b -> Q a b) -> Forall2 P l m -> Forall2 Q l m.
Proof. intros H F. induction F as [|a b l m X F IH]; constructor; [apply H; [now left|exact X]|]. apply IH. intros. apply H; [now right|assumption]. Qed.

Lemma carriers_ok ctl g p sgn line : controls_ok ctl -> known g sgn -> is_header2 ctl g p sgn line -> shows_carriers ctl g p sgn line.
Proof.
  intros C K (ft & fs & E & F & S & A). exists ft, fs. split; [exact E|]. split; [exact F|]. split; [exact (shows_close _ _ _ _ _ (nominal_close g sgn K) S)|].
  eapply Forall2_impl_in; [|exact A]. cbv beta. intros k f I X. apply in_seq in I. pose proof (slots_pos g).
  apply (shows_close _ _ _ _ _ (carrier_close ctl g sgn (Z.of_nat k) C K ltac:(lia)) X).
Qed.

(** ** Messages *)
Lemma readable_codes m : readable m -> exists codes, codes_of (m_gnss m) (m_sigs m) = Some codes.
Proof.
  intros (_ & _ & _ & H). destruct (codes_of (m_gnss m) (m_sigs m)) as [c|] eqn:E; [eauto|].
  apply codes_of_known in E as (k & I & N). destruct (H k I N).
Qed.

Lemma row_shown ctl m codes p sgn line : controls_ok ctl -> (0 <= gps_utc_shift ctl <= 10000)%Z -> readable m -> codes_of (m_gnss m) (m_sigs m) = Some codes ->
  known (m_gnss m) sgn ->
  is_row p (row_time ctl (m_gnss m) (scaled_of m codes)) (columns ctl (m_gnss m) (ob_obs (scaled_of m codes)) p sgn) line ->
  shows_message ctl p sgn m line.
Proof.
  intros C SH (OK & NE & PL & KC) EC K (ft & fs & E & F & T & A). exists ft, fs. split; [exact E|]. split; [exact F|]. split.
  - intros TO. destruct (C30_gps_time (m_gnss m) _ _ _ TO SH) as (X & _). rewrite <- X.
    rewrite <- row_time_ok in T. cbn [scaled_of ob_hdr scaled_hdr d_time d_day] in T.
    destruct (m_gnss m); cbn [gnss_letter String.eqb Ascii.eqb Bool.eqb negb] in T; exact T.
  - unfold columns in A. remember (seq 1 (Z.to_nat (slots (m_gnss m)))) as l eqn:EL.
    assert (IN : forall k, In k l -> (1 <= Z.of_nat k <= slots (m_gnss m))%Z) by (intros k I; subst l; apply in_seq in I; pose proof (slots_pos (m_gnss m)); lia).
    clear EL F E. revert fs A. induction l as [|k l IH]; intros fs A; cbn [map] in A; inversion A as [|a f l' fs' X A']; subst; constructor.
    + eapply shows_agree; [|exact X]. cbn [scaled_of ob_obs]. apply column_agrees; try assumption. apply IN. now left.
    + apply IH; [|exact A']. intros j J. apply IN. now right.
Qed.

(** ** Frames *)
Local Open Scope Z_scope.
Lemma carries_number f n r : carries f (enc 12 n ++ r) -> 0 <= n < 4096 -> has_number f n.
Proof.
  intros (payload & crc & pad & (-> & _) & B & _) N. unfold has_number, frame_of. rewrite bits_of_app, bits_of_app, B, <- app_assoc.
  set (h := bits_of [0xD3; zlen payload / 256; zlen payload mod 256]).
  assert (L : length h = 24%nat) by reflexivity. split.
  - rewrite !app_length, L, enc_length. lia.
  - rewrite skipn_app, <- L, skipn_all, Nat.sub_diag. cbn [skipn app]. rewrite <- app_assoc, firstn_app, enc_length, Nat.sub_diag, firstn_O, app_nil_r.
    rewrite firstn_all2 by (now rewrite enc_length). symmetry. apply uval_enc_small. exact N.
Qed.
Lemma carries_bytes f l : carries f l -> bytes_ok f.
Proof. intros (payload & crc & pad & TF & _). destruct (ReadProofs.frame_at _ _ _ TF) as (_ & _ & _ & B). exact B. Qed.

Definition observing (mode : string) : Prop := mode = "MARGO"%string \/ mode = "JARGO"%string.

Lemma force_first a l io : (forall io', In io' l -> sd_subset io' <> sd_subset io) -> acceptable io -> in_force (map Register (a ++ io :: l)) io.
Proof.
  intros H A. exists (map Register a), (map Register l). split; [now rewrite map_app|]. split; [exact A|].
  intros io' I _. apply in_map_iff in I as (x & E & I). injection E as <-. now apply H.
Qed.

Lemma msm_claimed mode g t : observing mode -> exists io,
  in_force (map Register (decoders_of mode)) io /\ claims io (msm_number g t) "ObservablesMSM" /\
  sd_decode io = Some (fun buf => wrap_msm (decode_msm17 false buf)) /\
  forall io' cls', in_force (map Register (decoders_of mode)) io' -> claims io' (msm_number g t) cls' -> io' = io.
Proof.
  intros M.
  assert (A1 : in_force (map Register (decoders_of mode)) (sub_msm4567 false)).
  { assert (exists l, decoders_of mode = [] ++ sub_msm4567 false :: l /\ forall x, In x l -> In x [sub_msm123 false; sub_eph false; sub_base false]) as (l & -> & L)
      by (destruct M as [-> | ->]; eexists; (split; [reflexivity|]); cbn [In]; tauto).
    apply force_first; [|split; discriminate]. intros io' I. apply L in I as [<-|[<-|[<-|[]]]]; discriminate. }
  assert (A2 : in_force (map Register (decoders_of mode)) (sub_msm123 false)).
  { assert (exists l, decoders_of mode = [sub_msm4567 false] ++ sub_msm123 false :: l /\ forall x, In x l -> In x [sub_eph false; sub_base false]) as (l & -> & L)
      by (destruct M as [-> | ->]; eexists; (split; [reflexivity|]); cbn [In]; tauto).
    apply force_first; [|split; discriminate]. intros io' I. apply L in I as [<-|[<-|[]]]; discriminate. }
  assert (U : forall io' cls', in_force (map Register (decoders_of mode)) io' -> claims io' (msm_number g t) cls' ->
              io' = if extended t || match t with MSM4 | MSM5 => true | _ => false end then sub_msm4567 false else sub_msm123 false).
  { intros io' cls' I (Q & _). apply force_registered in I. apply (mode_standard mode) in I.
    assert (is_bare mode = false) as B by (destruct M as [-> | ->]; reflexivity). rewrite B in I.
    destruct I as [<-|[<-|[<-|[<-|[]]]]]; destruct g, t; try reflexivity; vm_compute in Q; discriminate Q. }
  destruct t; [exists (sub_msm123 false)|exists (sub_msm123 false)|exists (sub_msm123 false)|exists (sub_msm4567 false)..];
    (split; [assumption|]); (split; [destruct g; (split; [vm_compute; reflexivity|vm_compute; tauto])|]); (split; [reflexivity|exact U]).
Qed.

Definition codes_for (m : msm) : list string := match codes_of (m_gnss m) (m_sigs m) with Some c => c | None => [] end.
Definition object_for (m : msm) : rtcm_obj := OMsm (MsmScaled (scaled_of m (codes_for m))).

Lemma msm_answer mode f m : observing mode -> readable m -> carries f (msm_bits m) ->
  answer (map Register (decoders_of mode)) f = Ok (Some (object_for m)).
Proof.
  intros M R C. destruct (readable_codes m R) as (codes & EC). pose proof R as (OK & NE & PL & _).
  destruct (msm_claimed mode (m_gnss m) (m_type m) M) as (io & I & Cl & D & U).
  refine (C12_no_loss _ f io (msm_number (m_gnss m) (m_type m)) "ObservablesMSM" _ (object_for m) (carries_bytes f _ C) I _ Cl U D _ eq_refl).
  - unfold msm_bits, header_bits in C. rewrite <- app_assoc in C. refine (carries_number f _ _ C _). destruct (m_gnss m), (m_type m); cbn; lia.
  - unfold object_for, codes_for. rewrite EC. rewrite (C16_scaled_object f m codes OK NE C PL EC). reflexivity.
Qed.

Lemma other_answer mode f o : valid_frame f -> answer (map Register (decoders_of mode)) f = Ok (Some o) ->
  class_of o = "ObservablesMSM"%string -> exists m, readable m /\ carries f (msm_bits m).
Proof.
  intros V A C. destruct (valid_transport f V) as (payload & crc & TF). pose proof (valid_frame_bytes f V) as B.
  destruct (C12_result _ _ _ B A) as (io & n & cls & g & I & HN & Cl & SD & R & IS).
  apply force_registered in I. apply (mode_standard mode) in I. rename g into dec.
  assert (X : exists r, wrap_msm (decode_msm17 (is_bare mode) f) = Ok (Some r) /\ r = o \/ exists p, o = OPy p /\ po_class p = "ObservablesMSM"%string).
  { destruct I as [<-|[<-|[<-|[<-|[]]]]]; cbn [sd_decode sub_msm4567 sub_msm123 sub_eph sub_base] in SD;
      apply (f_equal (fun x => match x with Some g => g f | None => Err EKey end)) in SD; rewrite R in SD.
    - exists o. left. auto.
    - exists o. left. auto.
    - exists o. right. unfold wrap_py in SD. destruct (EphModel.subdecoder_eph _ f) as [[p|]|]; cbn in SD; try discriminate.
      exists p. split; [congruence|]. assert (o = OPy p) as -> by congruence. exact C.
    - exists o. right. unfold wrap_py in SD. destruct (BaseModel.subdecoder_base _ f) as [[p|]|]; cbn in SD; try discriminate.
      exists p. split; [congruence|]. assert (o = OPy p) as -> by congruence. exact C. }
  destruct X as (r0 & [(D & ->)|(p & -> & CP)]).
  2:{ exfalso. destruct (JsonDecoded.decoded_object (PropertiesJson.sample_controls true) (is_bare mode) _ f payload crc (OPy p) (mode_standard mode) TF A) as ((_ & _ & J) & _).
      rewrite CP in J. vm_compute in J. discriminate. }
  unfold wrap_msm in D. destruct (decode_msm17 (is_bare mode) f) as [[r|]|] eqn:DM; cbn in D; try discriminate.
  assert (o = OMsm r) as -> by congruence. destruct r as [b|r]; [destruct b; discriminate C|].
  destruct (is_bare mode).
  { unfold decode_msm17 in DM. destruct (bare_decode f) as [b|e]; [discriminate|destruct (is_exception e); discriminate]. }
  pose proof DM as DM'. unfold decode_msm17 in DM'. destruct (bare_decode f) as [b|e] eqn:BD; [|destruct (is_exception e); discriminate].
  pose proof (proj1 (bare_decode_iff _ _ _ _ TF) BD) as (m & OK & NE & P & Ca & ->).
  rewrite convert_ok in DM' by assumption. destruct (codes_of _ _) as [codes|] eqn:EC; [|discriminate].
  exists m. split; [|exact Ca]. split; [exact OK|]. split; [exact NE|]. split; [exact P|].
  intros k K N. assert (X : codes_of (m_gnss m) (m_sigs m) = None) by (apply codes_of_known; eauto). congruence.
Qed.

Lemma observation_class mode o : observing mode -> same_family (family_of mode o) ObsFiles = String.eqb (class_of o) "ObservablesMSM".
Proof.
  intros M. unfold family_of. assert (E : String.eqb mode "MARGO" || String.eqb mode "JARGO" = true) by (destruct M as [-> | ->]; reflexivity).
  rewrite E, Bool.andb_true_r. destruct (String.eqb (class_of o) "ObservablesMSM"); reflexivity.
Qed.

Lemma observations_sent mode : observing mode -> forall frames msgs, Forall valid_frame frames -> Forall2 arrives frames msgs ->
  observations mode (objects mode frames) = map object_for (sent msgs).
Proof.
  intros M frames msgs V F. induction F as [|f o frames msgs A F IH]; [reflexivity|]. inversion V as [|? ? V1 V2]; subst. specialize (IH V2).
  unfold observations, objects, sent in *. cbn [flat_map]. rewrite filter_app, map_app, IH. f_equal. inversion A as [? m R C|? N]; subst.
  - rewrite (msm_answer mode f m M R C). cbn [filter map]. rewrite (observation_class mode _ M). reflexivity.
  - destruct (answer (map Register (decoders_of mode)) f) as [[o|]|e] eqn:E; try reflexivity. cbn [filter map]. rewrite (observation_class mode _ M).
    destruct (String.eqb_spec (class_of o) "ObservablesMSM"); [|reflexivity]. destruct (other_answer mode f o V1 E) as (m & R & C); [assumption|]. destruct (N m R C).
Qed.

Lemma arrives_total mode f : observing mode -> valid_frame f -> exists o, arrives f o.
Proof.
  intros M V. destruct (answer (map Register (decoders_of mode)) f) as [[o|]|e] eqn:E.
  - destruct (String.eqb_spec (class_of o) "ObservablesMSM") as [C|C].
    + destruct (other_answer mode f o V E C) as (m & R & K). exists (Some m). now constructor.
    + exists None. constructor. intros m R K. rewrite (msm_answer mode f m M R K) in E. injection E as <-. now apply C.
  - exists None. constructor. intros m R K. rewrite (msm_answer mode f m M R K) in E. discriminate.
  - exists None. constructor. intros m R K. rewrite (msm_answer mode f m M R K) in E. discriminate.
Qed.

(** ** Files *)
Definition of_message (e : print_event) (m : msm) : Prop :=
  readable m /\ pe_obs e = scaled_of m (codes_for m) /\ pe_gnss e = m_gnss m /\ pe_type e = m_type m /\ forall name, pe_can_create e name = true.

Lemma type_inj t t' : type_name t = type_name t' -> t = t'.
Proof. destruct t, t'; try discriminate; reflexivity. Qed.

Lemma history_messages : forall msgs hist, Forall readable msgs -> history_of (map object_for msgs) hist -> Forall2 of_message hist msgs.
Proof.
  induction msgs as [|m msgs IH]; intros hist R (E & F); destruct hist as [|e hist]; cbn [map] in E; try discriminate E; [constructor|].
  inversion R as [|? ? R1 R2]; subst. inversion F as [|? ? (F1 & F2) F3]; subst.
  assert (E1 : OMsm (MsmScaled (pe_obs e)) = object_for m) by congruence.
  assert (E2 : map (fun e => OMsm (MsmScaled (pe_obs e))) hist = map object_for msgs) by congruence.
  constructor; [|apply IH; [exact R2|]; split; assumption].
  unfold object_for in E1. assert (EO : pe_obs e = scaled_of m (codes_for m)) by congruence.
  split; [exact R1|]. split; [exact EO|]. destruct F1 as (G & T & _). rewrite EO in G, T. cbn in G, T.
  split; [symmetry; now apply letter_inj|]. split; [symmetry; now apply type_inj|]. exact F2.
Qed.

Lemma goes_row ctl g p sgn t e m : of_message e m -> goes_here ctl g p sgn t e = has_row ctl g p sgn t m.
Proof.
  intros (R & EO & EG & ET & _). unfold goes_here, has_row. rewrite EG, ET, EO, <- !andb_assoc. do 2 f_equal.
  destruct (readable_codes m R) as (codes & EC). unfold codes_for. rewrite EC. cbn [scaled_of ob_obs]. apply contributes_row; [apply R|exact EC].
Qed.
Lemma filter_rel {A B} (P : A -> B -> Prop) f g l m : (forall a b, P a b -> f a = g b) -> Forall2 P l m -> Forall2 P (filter f l) (filter g m).
Proof. intros H F. induction F as [|a b l m X F IH]; cbn [filter]; [constructor|]. rewrite (H a b X). destruct (g b); [constructor|]; assumption. Qed.
Lemma created_recorded ctl g p sgn t hist : Forall (fun e => forall name, pe_can_create e name = true) hist ->
  recorded ctl g p sgn t hist = filter (goes_here ctl g p sgn t) hist.
Proof.
  intros H. unfold recorded. destruct (filter _ hist) as [|e l] eqn:E; [reflexivity|]. cbn [drop_until].
  assert (I : In e (filter (goes_here ctl g p sgn t) hist)) by (rewrite E; now left). apply filter_In in I as (I & _).
  rewrite Forall_forall in H. now rewrite (H e I).
Qed.

Lemma file_sent ctl g p sgn t hist msgs text : controls_ok ctl -> (0 <= gps_utc_shift ctl <= 10000)%Z -> known g sgn ->
  Forall2 of_message hist msgs -> file_of ctl g p sgn t hist text -> observation_file ctl g p sgn t msgs text.
Proof.
  intros C SH K F (h1 & h2 & rows & E & H1 & H2 & R). exists h1, h2, rows. split; [exact E|]. split; [exact H1|]. split; [now apply carriers_ok|].
  rewrite created_recorded in R by (clear -F; induction F as [|e m l l' (_ & _ & _ & _ & X)]; constructor; assumption).
  pose proof (filter_rel _ (goes_here ctl g p sgn t) (has_row ctl g p sgn t) _ _ (fun e m => goes_row ctl g p sgn t e m) F) as FR.
  assert (HG : Forall (fun m => m_gnss m = g) (filter (has_row ctl g p sgn t) msgs)).
  { apply Forall_forall. intros m I. apply filter_In in I as (_ & I). unfold has_row in I. destruct (gnss_eq_dec (m_gnss m) g); [assumption|discriminate]. }
  clear E H1 H2 F. revert rows R HG. induction FR as [|e m l l' X FR IH]; intros rows R HG; inversion R as [|? row ? rows' R1 R2]; subst; constructor.
  - inversion HG as [|? ? HG1 _]; subst. destruct X as (RD & EO & _). destruct (readable_codes m RD) as (codes & EC). unfold codes_for in EO. rewrite EC in EO.
    rewrite EO in R1. exact (row_shown ctl m codes p sgn row C SH RD EC K R1).
  - apply IH; [exact R2|]. now inversion HG.
Qed.
