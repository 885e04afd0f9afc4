(** * MsmScaleTheorems: reading single observables out of the scaled object. *)
From Verif Require Import PyBase PyDict PyFloat MessageSpec MsmModel MsmSpec MsmProofs MsmScaleSpec
  MsmConvert MsmTheorems.
Local Open Scope string_scope.
Local Open Scope list_scope.
Local Open Scope Z_scope.

(** [d[sig][sat]], None when either key is missing. *)
Definition lookup {V} (d : obs_dict V) (sig : string) (sat : Z) : option V :=
  match sget d sig with Some inner => zget inner sat | None => None end.

Lemma dget_filter {K V} (eqb : K -> K -> bool) (f : K * V -> bool) (d : list (K * V)) k v :
  (forall a b, eqb a b = true <-> a = b) -> NoDup (map fst d) ->
  dget eqb d k = Some v -> dget eqb (filter f d) k = if f (k, v) then Some v else None.
Proof.
  intros ES. induction d as [|[k' v'] d IH]; cbn [dget map fst]; [discriminate|].
  intros ND. inversion ND as [|? ? NI ND']; subst.
  destruct (eqb k k') eqn:E; intros H.
  - inversion H; subst v'. apply ES in E; subst k'. cbn [filter].
    destruct (f (k, v)); cbn [dget].
    + now rewrite (proj2 (ES k k) eq_refl).
    + apply dget_None; [exact ES|]. intros I. apply NI. apply in_map_iff in I.
      destruct I as (p & E1 & E2). apply filter_In in E2. apply in_map_iff. now exists p.
  - cbn [filter]. destruct (f (k', v')); cbn [dget]; [rewrite E|]; now apply IH.
Qed.

Section Lookup.
Context {V : Type} (val : sat_data -> list (option cell_data) -> cell_data -> option V).

Lemma table_keys_map (codes : list string) rows :
  map fst (map (fun j => (nth j codes "", signal_entries val rows j)) (seq 0 (length codes))) = codes.
Proof.
  rewrite map_map. cbn [fst]. clear rows.
  induction codes as [|c codes IH]; [reflexivity|].
  cbn [length seq map nth]. f_equal. rewrite <- seq_shift, map_map. cbn [nth]. exact IH.
Qed.

Lemma raw_get (codes : list string) rows j sig : NoDup codes -> nth_error codes j = Some sig ->
  sget (map (fun j => (nth j codes "", signal_entries val rows j)) (seq 0 (length codes))) sig
  = Some (signal_entries val rows j).
Proof.
  intros ND E. unfold sget. apply In_dget; [exact string_eqb_spec|now rewrite table_keys_map|].
  apply in_map_iff. exists j. split; [f_equal; now apply nth_error_nth|].
  apply in_seq. split; [lia|]. apply nth_error_Some. congruence.
Qed.

Lemma lookup_table_entries codes rows j sig sat : NoDup codes -> nth_error codes j = Some sig ->
  lookup (table val codes rows) sig sat = zget (signal_entries val rows j) sat.
Proof.
  intros ND E. unfold lookup, table, sget.
  rewrite (dget_filter String.eqb _ _ sig (signal_entries val rows j) string_eqb_spec).
  - cbn [snd]. destruct (signal_entries val rows j) as [|p l]; reflexivity.
  - now rewrite table_keys_map.
  - exact (raw_get codes rows j sig ND E).
Qed.

Lemma entries_get rows j s row : NoDup (map sd_id (map fst rows)) -> In (s, row) rows ->
  zget (signal_entries val rows j) (sd_id s) =
  match nth j row None with Some c => val s (firstn j row) c | None => None end.
Proof.
  induction rows as [|[s' row'] rows IH]; cbn [map fst In signal_entries flat_map]; [tauto|].
  intros ND [H|H]; inversion ND as [|? ? NI ND']; subst.
  - inversion H; subst s' row'.
    assert (Z0 : zget (signal_entries val rows j) (sd_id s) = None).
    { apply dget_None; [exact z_eqb_spec|]. intros I. apply entries_keys in I. apply NI.
      rewrite map_map. exact I. }
    destruct (nth j row None) as [c|]; [|exact Z0].
    destruct (val s (firstn j row) c) as [v|]; [|exact Z0].
    cbn [app zget dget]. now rewrite Z.eqb_refl.
  - rewrite <- (IH ND' H).
    assert (N : sd_id s <> sd_id s').
    { intros X. apply NI. rewrite <- X. apply in_map. change s with (fst (s, row)). now apply in_map. }
    destruct (nth j row' None) as [c|]; [|reflexivity].
    destruct (val s' (firstn j row') c) as [v|]; [|reflexivity].
    cbn [app]. unfold zget. cbn [dget]. now rewrite (proj2 (Z.eqb_neq _ _) N).
Qed.

Lemma lookup_table codes rows j sig s row :
  NoDup codes -> NoDup (map sd_id (map fst rows)) -> nth_error codes j = Some sig -> In (s, row) rows ->
  lookup (table val codes rows) sig (sd_id s) =
  match nth j row None with Some c => val s (firstn j row) c | None => None end.
Proof.
  intros N1 N2 E I. rewrite (lookup_table_entries codes rows j) by assumption. now apply entries_get.
Qed.

Lemma entries_inv rows j sat v : In (sat, v) (signal_entries val rows j) ->
  exists s row c, In (s, row) rows /\ sd_id s = sat /\ nth j row None = Some c /\
    val s (firstn j row) c = Some v.
Proof.
  intros H. unfold signal_entries in H. apply in_flat_map in H. destruct H as ((s & row) & I & H).
  destruct (nth j row None) as [c|] eqn:E1; [|destruct H].
  destruct (val s (firstn j row) c) as [v'|] eqn:E2; [|destruct H].
  destruct H as [H|[]]. inversion H; subst. exists s, row, c. auto.
Qed.

(** Every entry comes from a present cell of that satellite and that signal. *)
Lemma lookup_table_inv codes rows sig sat v : NoDup codes ->
  lookup (table val codes rows) sig sat = Some v ->
  exists j s row c, nth_error codes j = Some sig /\ In (s, row) rows /\ sd_id s = sat /\
    nth j row None = Some c /\ val s (firstn j row) c = Some v.
Proof.
  intros ND H. pose proof H as H0. unfold lookup in H.
  destruct (sget (table val codes rows) sig) as [inner|] eqn:E; [|discriminate].
  apply (dget_In _ string_eqb_spec) in E. unfold table in E. apply filter_In in E.
  destruct E as [E _]. apply in_map_iff in E. destruct E as (j & E & J). inversion E; subst.
  assert (EJ : nth_error codes j = Some (nth j codes "")).
  { apply nth_error_nth'. apply in_seq in J. lia. }
  apply (dget_In _ z_eqb_spec) in H. apply entries_inv in H.
  destruct H as (s & row & c & I & <- & E1 & E2). exists j, s, row, c. auto.
Qed.
End Lookup.

(** ** Decoding in scaled mode *)
Lemma decode_scaled_ok buf m : msm_ok m -> msm_nonempty m -> carries buf (msm_bits m) ->
  passes_length_check m ->
  decode_msm17 false buf =
  Ok (match codes_of (m_gnss m) (m_sigs m) with
      | Some codes => Some (MsmScaled (scaled_of m codes))
      | None => None
      end).
Proof.
  intros OK NE C P. unfold decode_msm17. rewrite (proj1 (bare_decode_ok buf m OK NE C) P).
  rewrite convert_ok by assumption. destruct (codes_of _ _); reflexivity.
Qed.

Lemma codes_of_known g sigs :
  codes_of g sigs = None <-> exists k, In k sigs /\ signal_code g k = None.
Proof.
  induction sigs as [|k sigs IH]; cbn [codes_of In].
  - split; [discriminate|]. intros (k & [] & _).
  - destruct (signal_code g k) as [c|] eqn:E.
    + destruct (codes_of g sigs) as [cs|] eqn:ES.
      * split; [discriminate|]. intros (k' & [<-|I] & X); [congruence|].
        destruct IH as [_ IH]. discriminate IH. now exists k'.
      * split; [|reflexivity]. intros _. destruct (proj1 IH eq_refl) as (k' & I & X). exists k'. auto.
    + split; [|reflexivity]. intros _. exists k. auto.
Qed.

Lemma sats_nodup m : msm_ok m -> NoDup (map sd_id (map fst (m_rows m))).
Proof. intros (_ & (S & _) & _). now apply sorted_nodup. Qed.
Lemma codes_nodup_ok m codes : msm_ok m -> codes_of (m_gnss m) (m_sigs m) = Some codes -> NoDup codes.
Proof. intros (_ & _ & (S & _) & _) H. eapply codes_nodup; [|exact H]. now apply sorted_nodup. Qed.

(** ** Cells do not influence each other, except through [blocked] in MSM3 *)
Lemma not_blocked t before c : t <> MSM3 -> blocked t before c = false.
Proof. destruct t; try reflexivity. congruence. Qed.

Definition lock_value (t : msm_type) (s : sat_data) (c : cell_data) : option Z :=
  if has_cnr t then Some (lock_ms t (cd_lock c))
  else match phase_range t s c with Some _ => Some (lock_ms t (cd_lock c)) | None => None end.
Definition half_value (t : msm_type) (s : sat_data) (c : cell_data) : option bool :=
  if has_cnr t then Some (negb (cd_half c =? 0))
  else match phase_range t s c with Some _ => Some (negb (cd_half c =? 0)) | None => None end.
Definition cnr_value (t : msm_type) (s : sat_data) (c : cell_data) : option flt :=
  if has_cnr t then Some (cnr_dbhz t c) else None.

(** [o] is what one finds for the cell [oc] : the value when the cell is present. *)
Definition of_cell {V} (f : cell_data -> option V) (oc : option cell_data) : option V :=
  match oc with Some c => f c | None => None end.

Lemma observables_ok m codes : msm_ok m -> codes_of (m_gnss m) (m_sigs m) = Some codes ->
  forall s row j sig oc, In (s, row) (m_rows m) -> nth_error codes j = Some sig ->
  nth_error row j = Some oc ->
  let o := scaled_obs m codes in let t := m_type m in
  lookup (o_rng o) sig (sd_id s) = of_cell (code_range t s) oc /\
  lookup (o_dpl o) sig (sd_id s) = of_cell (phase_rate t s) oc /\
  lookup (o_c2n o) sig (sd_id s) = of_cell (cnr_value t s) oc /\
  (t <> MSM3 ->
   lookup (o_phs o) sig (sd_id s) = of_cell (phase_range t s) oc /\
   lookup (o_ltm o) sig (sd_id s) = of_cell (lock_value t s) oc /\
   lookup (o_hca o) sig (sd_id s) = of_cell (half_value t s) oc).
Proof.
  intros OK EC s row j sig oc I EJ ER. cbv zeta.
  pose proof (sats_nodup m OK) as N2. pose proof (codes_nodup_ok m codes OK EC) as N1.
  assert (EN : nth j row None = oc) by (now apply nth_error_nth).
  cbn [scaled_obs o_rng o_phs o_ltm o_hca o_dpl o_c2n].
  repeat split; try (intros HT; repeat split);
    rewrite (lookup_table _ codes (m_rows m) j sig s row N1 N2 EJ I), EN;
    destruct oc as [c|]; try reflexivity; cbn [of_cell]; unfold rep_ltm, rep_hca, rep_phs, lock_value, half_value;
    rewrite ?not_blocked by assumption; reflexivity.
Qed.

(** Nothing else: every entry belongs to a satellite of the message, a signal of the message
    and a present cell. *)
Definition has_cell (m : msm) (codes : list string) (sig : string) (sat : Z) : Prop :=
  exists s row j c, In (s, row) (m_rows m) /\ sd_id s = sat /\ nth_error codes j = Some sig /\
    nth_error row j = Some (Some c).

Lemma nth_some_error {A} (l : list (option A)) j c : nth j l None = Some c -> nth_error l j = Some (Some c).
Proof.
  revert j; induction l as [|x l IH]; intros [|j] H; cbn in *; try discriminate; [now subst|now apply IH].
Qed.

Lemma only_cells m codes sig sat : msm_ok m -> codes_of (m_gnss m) (m_sigs m) = Some codes ->
  let o := scaled_obs m codes in
  (lookup (o_rng o) sig sat <> None \/ lookup (o_phs o) sig sat <> None \/
   lookup (o_ltm o) sig sat <> None \/ lookup (o_hca o) sig sat <> None \/
   lookup (o_dpl o) sig sat <> None \/ lookup (o_c2n o) sig sat <> None) -> has_cell m codes sig sat.
Proof.
  intros OK EC o H. pose proof (codes_nodup_ok m codes OK EC) as N1.
  assert (G : forall V (val : sat_data -> list (option cell_data) -> cell_data -> option V),
    lookup (table val codes (m_rows m)) sig sat <> None -> has_cell m codes sig sat).
  { intros V val X. destruct (lookup (table val codes (m_rows m)) sig sat) as [v|] eqn:E; [|congruence].
    apply lookup_table_inv in E; [|exact N1]. destruct E as (j & s & row & c & E1 & E2 & E3 & E4 & _).
    exists s, row, j, c. repeat split; try assumption. now apply nth_some_error. }
  subst o. cbn [scaled_obs o_rng o_phs o_ltm o_hca o_dpl o_c2n] in H.
  destruct H as [H|[H|[H|[H|[H|H]]]]]; eapply G; exact H.
Qed.

(** MSM3: the phase of a cell is reported exactly when it is valid and no cell of the same
    satellite up to and including it has an invalid fine range. *)
Lemma msm3_phase m codes : msm_ok m -> codes_of (m_gnss m) (m_sigs m) = Some codes -> m_type m = MSM3 ->
  forall s row j sig c, In (s, row) (m_rows m) -> nth_error codes j = Some sig ->
  nth_error row j = Some (Some c) ->
  lookup (o_phs (scaled_obs m codes)) sig (sd_id s) =
  if existsb (range_invalid MSM3) (row_cells (firstn j row) ++ [c]) then None else phase_range MSM3 s c.
Proof.
  intros OK EC HT s row j sig c I EJ ER.
  cbn [scaled_obs o_phs].
  rewrite (lookup_table _ codes (m_rows m) j sig s row (codes_nodup_ok m codes OK EC) (sats_nodup m OK) EJ I).
  rewrite (nth_error_nth _ _ None ER). unfold rep_phs, blocked. now rewrite HT.
Qed.

(** Phase valid and all fine ranges of the satellite valid: reported. *)
Lemma msm3_phase_all_valid m codes : msm_ok m -> codes_of (m_gnss m) (m_sigs m) = Some codes ->
  m_type m = MSM3 ->
  forall s row j sig c, In (s, row) (m_rows m) -> nth_error codes j = Some sig ->
  nth_error row j = Some (Some c) ->
  (forall i c', (i <= j)%nat -> nth_error row i = Some (Some c') -> range_invalid MSM3 c' = false) ->
  phase_invalid MSM3 c = false ->
  exists x, phase_range MSM3 s c = Some x /\ lookup (o_phs (scaled_obs m codes)) sig (sd_id s) = Some x.
Proof.
  intros OK EC HT s row j sig c I EJ ER HV HP.
  rewrite (msm3_phase m codes OK EC HT s row j sig c I EJ ER).
  destruct (existsb _ _) eqn:E.
  - exfalso. apply existsb_exists in E. destruct E as (c' & IC & X). apply in_app_iff in IC.
    destruct IC as [IC|[<-|[]]].
    + unfold row_cells in IC. apply in_flat_map in IC. destruct IC as ([c2|] & I2 & IC); [|destruct IC].
      destruct IC as [<-|[]]. apply In_nth_error in I2. destruct I2 as (i & EI).
      assert (Li : (i < length (firstn j row))%nat) by (apply nth_error_Some; congruence).
      rewrite firstn_length in Li.
      rewrite HV with (i := i) in X; [discriminate|lia|]. rewrite <- EI. symmetry.
      clear - Li. revert j Li. revert i. induction row as [|a row IH]; intros [|i] [|j] Li; cbn in *; try lia; auto.
      apply IH. lia.
    + rewrite (HV j c) in X; [discriminate|lia|exact ER].
  - unfold phase_range. cbn [rough_ms has_phase andb]. rewrite HP. cbn [negb]. eexists. split; reflexivity.
Qed.
