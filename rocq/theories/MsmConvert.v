(** * MsmConvert: [Bare2Scaled.convert] produces the object prescribed by [MsmScaleSpec]. *)
From Coq Require Import Sorted.
From Verif Require Import PyBase PyDict PyFloat BitsModel BitsSpec BitsProofs TablesModel
  MessageSpec ReadProofs MsmModel MsmSpec MsmProofs MsmTheorems MsmScaleSpec MsmScaleProofs.
Local Open Scope string_scope.
Local Open Scope list_scope.
Local Open Scope Z_scope.

(** ** Dictionaries *)
Lemma combine_map_seq {A B} (d : A) (names : list A) (f : nat -> B) : forall k,
  combine names (map f (seq k (length names)))
  = map (fun j => (nth (j - k) names d, f j)) (seq k (length names)).
Proof.
  induction names as [|n names IH]; intros k; [reflexivity|].
  cbn [length seq map combine]. rewrite Nat.sub_diag. cbn [nth]. f_equal.
  rewrite IH. apply map_ext_in. intros j Hj. apply in_seq in Hj.
  replace (j - k)%nat with (S (j - S k)) by lia. reflexivity.
Qed.

Lemma fold_sset {V} (l : list (string * V)) : forall d, NoDup (map fst (d ++ l)) ->
  fold_left (fun d sf => sset d (fst sf) (snd sf)) l d = d ++ l.
Proof.
  induction l as [|[k v] l IH]; intros d ND; cbn [fold_left fst snd]; [now rewrite app_nil_r|].
  unfold sset at 2. rewrite (dset_new String.eqb string_eqb_spec).
  - rewrite IH; rewrite <- app_assoc; [reflexivity|]. exact ND.
  - rewrite map_app in ND. cbn [map fst] in ND. apply NoDup_remove_2 in ND.
    rewrite in_app_iff in ND. tauto.
Qed.

Lemma obs_slots_ok {V} (names : list string) : NoDup names ->
  obs_slots (V := V) names = combine names (map (fun _ => []) (seq 0 (length names))).
Proof.
  intros ND. unfold obs_slots.
  assert (E : forall d : obs_dict V,
    fold_left (fun d s => sset d s []) names d
    = fold_left (fun d sf => sset d (fst sf) (snd sf)) (map (fun s => (s, [])) names) d).
  { clear ND. induction names as [|n names IH]; intros d; [reflexivity|]. cbn [fold_left map fst snd]. apply IH. }
  rewrite E, fold_sset.
  - cbn [app]. clear. generalize 0%nat. induction names as [|n names IH]; intros k; [reflexivity|].
    cbn [map length seq combine]. now rewrite (IH (S k)).
  - cbn [app]. rewrite map_map. cbn [fst]. rewrite map_id. exact ND.
Qed.

Definition filled {V} (p : string * list (Z * V)) : bool := match snd p with [] => false | _ => true end.

Lemma prune_go {V} (l2 : obs_dict V) : forall l1, NoDup (map fst (l1 ++ l2)) ->
  for_each (map fst l2) (filter filled l1 ++ l2)
    (fun d s => inner <- sindex d s ;; match inner with [] => sdel d s | _ => Ok d end)
  = Ok (filter filled (l1 ++ l2)).
Proof.
  induction l2 as [|[k v] l2 IH]; intros l1 ND; cbn [map for_each fst].
  - rewrite !app_nil_r. reflexivity.
  - assert (NI : ~ In k (map fst (filter filled l1))).
    { rewrite map_app in ND. cbn [map fst] in ND. apply NoDup_remove_2 in ND. rewrite in_app_iff in ND.
      intros X. apply ND. left. apply in_map_iff in X. destruct X as ((k' & v') & E & X). cbn in E; subst k'.
      apply filter_In in X. apply in_map_iff. exists (k, v'). tauto. }
    assert (G : sindex (filter filled l1 ++ (k, v) :: l2) k = Ok v).
    { unfold sindex, dindex. clear - NI. induction (filter filled l1) as [|[k' x] d IHd]; cbn [app dget].
      - now rewrite String.eqb_refl.
      - cbn in NI. destruct (String.eqb_spec k k'); [subst; tauto|]. apply IHd; tauto. }
    rewrite G. cbn [bind].
    specialize (IH (l1 ++ [(k, v)])). rewrite <- app_assoc in IH. cbn [app] in IH. specialize (IH ND).
    rewrite filter_app in IH. cbn [filter] in IH.
    destruct v as [|e v].
    + unfold sdel. rewrite (ddel_in String.eqb string_eqb_spec) by exact NI. cbn [bind].
      unfold filled at 2 in IH. cbn [snd] in IH. rewrite app_nil_r in IH.
      refine (eq_trans IH _). rewrite !filter_app. cbn [filter]. reflexivity.
    + cbn [bind]. unfold filled at 2 in IH. cbn [snd] in IH. rewrite <- app_assoc in IH. cbn [app] in IH.
      exact IH.
Qed.

Lemma obs_prune_ok {V} (d : obs_dict V) names : NoDup names -> map fst d = names ->
  obs_prune names d = Ok (filter filled d).
Proof.
  intros ND <-. unfold obs_prune. exact (prune_go d [] ND).
Qed.

(** ** Masks *)
Lemma mask_members_ok n l : 0 <= n -> increasing_within n l ->
  mask_members (lsb_value (mask_bits n l)) n = l.
Proof.
  intros Hn HI. unfold mask_members.
  transitivity (filter (fun k => member k l) (zrange 1 (n + 1))).
  - assert (E : forall k : nat, forall a, 0 <= a -> a + Z.of_nat k <= n ->
      map (fun i => i + 1) (filter (fun i => negb (Z.land (lsb_value (mask_bits n l)) (Z.shiftl 1 i) =? 0))
        (zrange_n a k)) = filter (fun k => member k l) (zrange_n (a + 1) k)).
    { induction k as [|k IH]; intros a Ha Hk; [reflexivity|]. cbn [zrange_n filter].
      assert (T : negb (Z.land (lsb_value (mask_bits n l)) (Z.shiftl 1 a) =? 0) = member (a + 1) l).
      { assert (TB : Z.testbit (lsb_value (mask_bits n l)) a = member (a + 1) l).
        { replace a with (Z.of_nat (Z.to_nat a)) at 1 by lia. rewrite lsb_value_testbit. unfold mask_bits.
          rewrite (nth_indep _ false (member 0 l)) by (rewrite map_length, zrange_length; lia).
          rewrite (map_nth (fun k => member k l)). f_equal.
          unfold zrange. replace (n + 1 - 1) with n by lia.
          assert (X : forall c m i, (i < m)%nat -> nth i (zrange_n c m) 0 = c + Z.of_nat i).
          { clear. intros c m; revert c. induction m as [|m IH]; intros c i Hi; [lia|]. cbn [zrange_n].
            destruct i; cbn [nth]; [lia|]. rewrite IH by lia. lia. }
          rewrite X by lia. lia. }
        rewrite <- TB. rewrite Z.shiftl_mul_pow2, Z.mul_1_l by lia.
        destruct (Z.testbit (lsb_value (mask_bits n l)) a) eqn:E.
        - apply negb_true_iff, Z.eqb_neq. intros X.
          assert (Y : Z.testbit (Z.land (lsb_value (mask_bits n l)) (2 ^ a)) a = true)
            by (rewrite Z.land_spec, E, Z.pow2_bits_true by lia; reflexivity).
          rewrite X, Z.bits_0 in Y. discriminate.
        - apply negb_false_iff, Z.eqb_eq. apply Z.bits_inj'. intros i Hi.
          rewrite Z.land_spec, Z.bits_0, Z.pow2_bits_eqb by lia.
          destruct (Z.eqb_spec a i); [subst; rewrite E; reflexivity|apply andb_false_r]. }
      rewrite T. destruct (member (a + 1) l); cbn [map]; rewrite IH by lia; reflexivity. }
    specialize (E (Z.to_nat n) 0 ltac:(lia) ltac:(lia)).
    unfold zrange. replace (n - 0) with n by lia. replace (n + 1 - 1) with n by lia. exact E.
  - destruct HI as [HS HF]. unfold zrange. replace (n + 1 - 1) with n by lia.
    apply filter_member; [exact HS|]. apply Forall_impl with (2 := HF). intros; lia.
Qed.

Lemma lsb_app (a : list bool) : forall b, lsb_value (a ++ b) = lsb_value a + 2 ^ zlen a * lsb_value b.
Proof.
  induction a as [|x a IH]; intros b.
  - cbn [app lsb_value]. change (zlen (@nil bool)) with 0. lia.
  - cbn [app lsb_value]. rewrite IH, zlen_cons, Z.pow_add_r by (pose proof (zlen_nonneg a); lia). lia.
Qed.

Lemma lsb_slice (a b c : list bool) :
  Z.land (Z.shiftr (lsb_value (a ++ b ++ c)) (zlen a)) (Z.shiftl 1 (zlen b) - 1) = lsb_value b.
Proof.
  pose proof (zlen_nonneg a) as Na. pose proof (zlen_nonneg b) as Nb.
  rewrite Z.shiftl_mul_pow2, Z.mul_1_l by lia.
  replace (2 ^ zlen b - 1) with (Z.ones (zlen b)) by (rewrite Z.ones_equiv; lia).
  rewrite Z.land_ones, Z.shiftr_div_pow2 by lia.
  rewrite !lsb_app. pose proof (lsb_value_nonneg a). pose proof (lsb_value_bound a).
  pose proof (lsb_value_nonneg b). pose proof (lsb_value_bound b).
  rewrite (Z.mul_comm (2 ^ zlen a)), Z.div_add by lia. rewrite Z.div_small, Z.add_0_l by lia.
  rewrite (Z.mul_comm (2 ^ zlen b)), Z.mod_add by lia. apply Z.mod_small. lia.
Qed.

Definition slots_of (r : sat_data * list (option cell_data)) : Z := lsb_value (map present (snd r)).

Lemma slots_ok rows M : Forall (fun r => zlen (snd r) = M) rows -> 0 <= M ->
  map (fun i => Z.land (Z.shiftr (lsb_value (flat_map (fun r => map present (snd r)) rows)) (M * i))
                  (Z.shiftl 1 M - 1)) (zrange 0 (zlen rows))
  = map slots_of rows.
Proof.
  intros HF HM. unfold zrange. rewrite Z.sub_0_r. unfold zlen at 1. rewrite Nat2Z.id.
  set (bits := fun rs : list (sat_data * list (option cell_data)) => flat_map (fun r => map present (snd r)) rs).
  assert (ZB : forall rs, Forall (fun r => zlen (snd r) = M) rs -> zlen (bits rs) = M * zlen rs).
  { induction 1 as [|r rs Hr Hrs IH].
    - change (bits []) with (@nil bool). change (zlen (@nil bool)) with 0.
      change (zlen (@nil (sat_data * list (option cell_data)))) with 0. lia.
    - unfold bits in *. cbn [flat_map]. rewrite zlen_app, IH, zlen_map, zlen_cons. lia. }
  assert (G : forall rs0 rs1, rows = rs0 ++ rs1 ->
    map (fun i => Z.land (Z.shiftr (lsb_value (bits rows)) (M * i)) (Z.shiftl 1 M - 1))
      (zrange_n (zlen rs0) (length rs1)) = map slots_of rs1).
  { intros rs0 rs1; revert rs0. induction rs1 as [|r rs1 IH]; intros rs0 E; [reflexivity|].
    cbn [length zrange_n map]. f_equal.
    - assert (Fr : Forall (fun r => zlen (snd r) = M) (rs0 ++ r :: rs1)) by now rewrite <- E.
      apply Forall_app in Fr. destruct Fr as [F0 F1]. inversion F1 as [|? ? Hr _]; subst.
      rewrite <- (ZB rs0 F0). unfold bits at 1. rewrite flat_map_app. cbn [flat_map].
      rewrite <- (zlen_map present (snd r)). apply lsb_slice.
    - rewrite <- (IH (rs0 ++ [r])) by (rewrite <- app_assoc; exact E).
      rewrite zlen_app. reflexivity. }
  exact (G [] rows eq_refl).
Qed.

(** ** One more satellite *)
Lemma addrow_map {V} sat (L : list (list (Z * V))) vals : forall k, length L = length vals ->
  addrow sat L vals = map (fun j => add1 sat (nth (j - k) L []) (nth (j - k) vals None)) (seq k (length L)).
Proof.
  revert vals; induction L as [|l L IH]; intros [|v vals] k H; try discriminate; [reflexivity|].
  cbn [addrow length seq map]. rewrite Nat.sub_diag. cbn [nth]. f_equal.
  rewrite (IH vals (S k)) by (cbn in H; lia). apply map_ext_in. intros j Hj. apply in_seq in Hj.
  replace (j - k)%nat with (S (j - S k)) by lia. reflexivity.
Qed.

Section OneMore.
Context {V : Type} (val : sat_data -> list (option cell_data) -> cell_data -> option V).
Definition entries_list (rows : list (sat_data * list (option cell_data))) (n : nat) :=
  map (signal_entries val rows) (seq 0 n).

Lemma entries_add rows s row n : length row = n ->
  addrow (sd_id s) (entries_list rows n) (row_vals (val s) [] row) = entries_list (rows ++ [(s, row)]) n.
Proof.
  intros HL. rewrite (addrow_map _ _ _ 0%nat)
    by (unfold entries_list; rewrite map_length, seq_length, row_vals_length; lia).
  unfold entries_list. rewrite map_length, seq_length. apply map_ext_in. intros j Hj. apply in_seq in Hj.
  rewrite Nat.sub_0_r, row_vals_nth. cbn [app].
  rewrite (nth_indep _ [] (signal_entries val rows 0)) by (rewrite map_length, seq_length; lia).
  rewrite map_nth, seq_nth by lia. cbn [plus].
  unfold signal_entries at 2. rewrite flat_map_app. cbn [flat_map]. rewrite app_nil_r.
  fold (signal_entries val rows j).
  destruct (nth j row None) as [c|]; cbn [add1]; [|now rewrite app_nil_r].
  destruct (val s (firstn j row) c); cbn [add1]; [reflexivity|now rewrite app_nil_r].
Qed.

Lemma entries_keys rows j k : In k (map fst (signal_entries val rows j)) -> In k (map (fun r => sd_id (fst r)) rows).
Proof.
  induction rows as [|[s row] rows IH]; cbn [signal_entries flat_map map]; [tauto|].
  rewrite map_app, in_app_iff. intros [H|H]; [left|right; now apply IH].
  destruct (nth j row None) as [c|]; [|destruct H].
  destruct (val s (firstn j row) c); cbn in H; [|tauto]. cbn [fst]. tauto.
Qed.

Lemma entries_fresh rows n sat : ~ In sat (map (fun r => sd_id (fst r)) rows) ->
  Forall (fresh_in sat) (entries_list rows n).
Proof.
  intros H. unfold entries_list. apply Forall_forall. intros l Hl. apply in_map_iff in Hl.
  destruct Hl as (j & <- & _). intros X. apply H. exact (entries_keys _ _ _ X).
Qed.

Lemma entries_shape names rows n sat : length names = n ->
  ~ In sat (map (fun r => sd_id (fst r)) rows) ->
  shape names [] names sat (@nil (list (Z * V))) (entries_list rows n).
Proof.
  intros H1 H2. repeat split; [unfold entries_list; rewrite map_length, seq_length; lia|].
  now apply entries_fresh.
Qed.

Lemma entries_table names rows :
  filter filled (combine names (entries_list rows (length names))) = table val names rows.
Proof.
  unfold table, entries_list. f_equal. rewrite (combine_map_seq "" names _ 0%nat).
  apply map_ext. intros j. now rewrite Nat.sub_0_r.
Qed.

Lemma entries_fst (names : list string) rows :
  map fst (combine names (entries_list rows (length names))) = names.
Proof. apply combine_keys. unfold entries_list. now rewrite map_length, seq_length. Qed.

Lemma entries_nil n : entries_list [] n = map (fun _ => @nil (Z * V)) (seq 0 n).
Proof. reflexivity. Qed.

Lemma table_none names rows : (forall s b c, val s b c = None) -> table val names rows = [].
Proof.
  intros H. unfold table.
  assert (E : forall j, signal_entries val rows j = []).
  { intros j. induction rows as [|[s row] rows IH]; [reflexivity|]. cbn [signal_entries flat_map].
    fold (signal_entries val rows j). rewrite IH, app_nil_r.
    destruct (nth j row None); [now rewrite H|reflexivity]. }
  induction (seq 0 (length names)) as [|j l IH]; [reflexivity|]. cbn [map filter snd]. rewrite E. exact IH.
Qed.
End OneMore.

(** ** Field values of MSM4..MSM7 *)
Lemma tlock10_ok l : fits_u 10 l -> unpack_tlock10 l = df407_ms l.
Proof.
  intros [H1 H2]. change (2 ^ Z.of_nat 10) with 1024 in H2.
  assert (C : forallb (fun l => unpack_tlock10 l =? df407_ms l) (zrange 0 1024) = true)
    by (vm_compute; reflexivity).
  rewrite forallb_forall in C. apply Z.eqb_eq, C, zrange_In. lia.
Qed.

Lemma scale_pow_m4 : dec_lit 625 4 = f_pow2 (-4).
Proof. vm_compute. reflexivity. Qed.

Definition the_scalers (t : msm_type) := if extended t then SCALERS67 else SCALERS45.
Definition the_checkers (t : msm_type) := if extended t then CHECKERS67 else CHECKERS45.

Lemma ck_invalid w f mask half : 0 < Z.of_nat w -> mask = Z.ones (Z.of_nat w) -> half = 2 ^ (Z.of_nat w - 1) ->
  fits_s w f -> negb (Z.land f mask =? half) = negb (marks_invalid (Z.of_nat w) f).
Proof. intros Hw -> -> F. f_equal. apply land_ones_invalid; [exact Hw|exact F]. Qed.

Lemma cell_fits t cells (HCC : forall c, In c (cell_columns t) -> Forall (fits c) cells) w sg get c : In (w, sg, get) (cell_columns t) -> In c cells ->
  match sg with Unsigned => fits_u w (get c) | Signed => fits_s w (get c) end.
Proof. intros H I. specialize (HCC _ H). rewrite Forall_forall in HCC. exact (HCC c I). Qed.

Lemma ck_rng_ok t cells (T : has_cnr t = true)
  (HCC : forall c, In c (cell_columns t) -> Forall (fits c) cells) c : In c cells -> ck_rng (the_checkers t) (cd_rng c) = negb (range_invalid t c).
Proof.
  intros I. unfold the_checkers, range_invalid. destruct t; try discriminate T; cbn [extended];
    (apply (ck_invalid 15) || apply (ck_invalid 20)); try reflexivity;
    (apply (cell_fits _ _ HCC 15 Signed cd_rng) || apply (cell_fits _ _ HCC 20 Signed cd_rng)); try exact I; cbn; tauto.
Qed.
Lemma ck_phs_ok t cells (T : has_cnr t = true)
  (HCC : forall c, In c (cell_columns t) -> Forall (fits c) cells) c : In c cells -> ck_phs (the_checkers t) (cd_phs c) = negb (phase_invalid t c).
Proof.
  intros I. unfold the_checkers, phase_invalid. destruct t; try discriminate T; cbn [extended];
    (apply (ck_invalid 22) || apply (ck_invalid 24)); try reflexivity;
    (apply (cell_fits _ _ HCC 22 Signed cd_phs) || apply (cell_fits _ _ HCC 24 Signed cd_phs)); try exact I; cbn; tauto.
Qed.
Lemma ck_dpl_ok t cells (T : has_cnr t = true)
  (HCC : forall c, In c (cell_columns t) -> Forall (fits c) cells) c : has_rate t = true -> In c cells ->
  ck_dpl (the_checkers t) (cd_rate c) = negb (marks_invalid 15 (cd_rate c)).
Proof.
  intros R I. unfold the_checkers. destruct t; try discriminate T; try discriminate R; cbn [extended];
    apply (ck_invalid 15); try reflexivity; apply (cell_fits _ _ HCC 15 Signed cd_rate); try exact I; cbn; tauto.
Qed.
Lemma ltm_ok t cells (T : has_cnr t = true)
  (HCC : forall c, In c (cell_columns t) -> Forall (fits c) cells) c : In c cells -> sc_ltm (the_scalers t) (cd_lock c) = lock_ms t (cd_lock c).
Proof.
  intros I. unfold the_scalers, lock_ms. destruct t; try discriminate T; cbn [extended sc_ltm SCALERS67 SCALERS45];
    (apply tlock10_ok; apply (cell_fits _ _ HCC 10 Unsigned cd_lock); [cbn; tauto|exact I]) ||
    (apply lock4_ok; apply (cell_fits _ _ HCC 4 Unsigned cd_lock); [cbn; tauto|exact I]).
Qed.
Lemma c2n_ok t c : f_mul (f_of_int (cd_cnr c)) (sc_c2n (the_scalers t)) = cnr_dbhz t c.
Proof.
  unfold the_scalers, cnr_dbhz. destruct (extended t); [|reflexivity].
  cbn [sc_c2n SCALERS67]. now rewrite scale_pow_m4.
Qed.


(** ** The loop over satellites *)
Section Loops.
Context (m : msm) (names : list string).
Hypothesis OK : msm_ok m.
Hypothesis ND : NoDup names.
Hypothesis LN : length names = length (m_sigs m).
Let t := m_type m.
Let rows := m_rows m.
Let cells_of (rs : list (sat_data * list (option cell_data))) := flat_map (fun r => row_cells (snd r)) rs.

Lemma ids_nodup : NoDup (map (fun r => sd_id (fst r)) rows).
Proof.
  destruct OK as (_ & (HS & _) & _). unfold m_sats in HS. rewrite map_map in HS. fold rows in HS.
  clear - HS. induction HS as [|a l HS IH HF]; constructor; [|exact IH].
  intros X. rewrite Forall_forall in HF. specialize (HF a X). lia.
Qed.

Definition all_obs (rs : list (sat_data * list (option cell_data))) : obs :=
  {| o_rng := combine names (entries_list (rep_rng t) rs (length names));
     o_phs := combine names (entries_list (rep_phs t) rs (length names));
     o_ltm := combine names (entries_list (rep_ltm t) rs (length names));
     o_hca := combine names (entries_list (rep_hca t) rs (length names));
     o_dpl := if has_cnr t then combine names (entries_list (rep_dpl t) rs (length names)) else [];
     o_c2n := if has_cnr t then combine names (entries_list (rep_c2n t) rs (length names)) else [] |}.

Lemma index_map {A} (f : sat_data -> A) rs0 s row rs1 : rows = rs0 ++ (s, row) :: rs1 ->
  py_index (map f (m_sats m)) (zlen rs0) = Ok (f s).
Proof.
  intros E. unfold m_sats. fold rows. rewrite E, !map_app. cbn [map fst]. apply py_index_app.
  now rewrite !zlen_map.
Qed.

Lemma row_facts rs0 s row rs1 : rows = rs0 ++ (s, row) :: rs1 ->
  length row = length names /\ ~ In (sd_id s) (map (fun r => sd_id (fst r)) rs0) /\
  m_cells m = cells_of rs0 ++ row_cells row ++ cells_of rs1 /\
  (forall c, In c (sat_columns t) -> fits c s).
Proof.
  intros E. split; [|split; [|split]].
  - destruct OK as (_ & _ & _ & HR & _). fold rows in HR. rewrite E in HR. apply Forall_app in HR.
    destruct HR as [_ HR]. inversion HR; subst. cbn [snd] in *. congruence.
  - pose proof ids_nodup as N. rewrite E, map_app in N. cbn [map fst] in N. apply NoDup_remove_2 in N.
    rewrite in_app_iff in N. tauto.
  - unfold m_cells, cells_of. fold rows. rewrite E, flat_map_app. reflexivity.
  - intros c Hc. destruct OK as (_ & _ & _ & _ & _ & HSC & _). specialize (HSC c Hc).
    unfold m_sats in HSC. fold rows in HSC. rewrite E, map_app in HSC. apply Forall_app in HSC.
    destruct HSC as [_ HSC]. cbn [map fst] in HSC. now inversion HSC.
Qed.

Section Loop47.
Hypothesis T : has_cnr t = true.
Context (bs : bare_sat4567) (bg : bare_sgn4567).
Hypothesis B1 : sat_rng_ms bs = map sd_ms (m_sats m).
Hypothesis B2 : sat_rng_rough bs = map sd_rough (m_sats m).
Hypothesis B3 : has_rate t = true -> sat_phase_rate_rough bs = map sd_rate (m_sats m).
Hypothesis G1 : sgn_rng_fine bg = map cd_rng (m_cells m).
Hypothesis G2 : sgn_phase_fine bg = map cd_phs (m_cells m).
Hypothesis G3 : sgn_lock_time bg = map cd_lock (m_cells m).
Hypothesis G4 : sgn_hc_indc bg = map cd_half (m_cells m).
Hypothesis G5 : sgn_c2n bg = map cd_cnr (m_cells m).
Hypothesis G6 : has_rate t = true -> sgn_phase_rate_fine bg = map cd_rate (m_cells m).

Lemma loop47 (a : attributes) (HA : is_msm7 a || is_msm5 a = has_rate t) rs1 : forall rs0, rows = rs0 ++ rs1 ->
  for_each (map slots_of rs1) (all_obs rs0, zlen rs0, zlen (cells_of rs0))
    (fun '(o, sat_idx, sgn_idx) slots =>
       sat <- py_index (map sd_id (m_sats m)) sat_idx ;;
       ms <- py_index (sat_rng_ms bs) sat_idx ;;
       let rng_ok := negb (ms =? 255) in
       rng <- (if rng_ok then
                 rough <- py_index (sat_rng_rough bs) sat_idx ;;
                 Ok (f_div (f_of_int (Z.shiftl ms 10 + rough)) (f_of_int 1024))
               else Ok (f_of_int 0)) ;;
       '(phase_rate_ok, phase_rate) <-
         (if is_msm7 a || is_msm5 a then
            r <- py_index (sat_phase_rate_rough bs) sat_idx ;;
            if negb (Z.land r 0x3FFF =? 0x2000) then Ok (true, f_of_int r)
            else Ok (false, f_of_int 0)
          else Ok (false, f_of_int 0)) ;;
       '(o, sgn_idx) <- cells47 (slot_fuel slots) names bg (the_scalers t) (the_checkers t) sat rng_ok rng
                          phase_rate_ok phase_rate slots 0 sgn_idx o ;;
       Ok (o, sat_idx + 1, sgn_idx))
  = Ok (all_obs (rs0 ++ rs1), zlen (rs0 ++ rs1), zlen (cells_of (rs0 ++ rs1))).
Proof.
  induction rs1 as [|[s row] rs1 IH]; intros rs0 E; [now rewrite app_nil_r|].
  destruct (row_facts _ _ _ _ E) as (LR & FR & MC & FS).
  cbn [map for_each]. rewrite (index_map sd_id _ _ _ _ E). cbn [bind].
  rewrite B1, (index_map sd_ms _ _ _ _ E). cbn [bind].
  set (rng_ok := negb (sd_ms s =? 255)).
  assert (X : exists rng, (if rng_ok then
                 rough <- py_index (sat_rng_rough bs) (zlen rs0) ;;
                 Ok (f_div (f_of_int (Z.shiftl (sd_ms s) 10 + rough)) (f_of_int 1024))
               else Ok (f_of_int 0)) = Ok rng /\ rough_ms t s = (if rng_ok then Some rng else None)).
  { unfold rng_ok. assert (RM : rough_ms t s = if sd_ms s =? 255 then None
         else Some (f_div (f_of_int (sd_ms s * 1024 + sd_rough s)) (f_of_int 1024)))
      by (destruct t; try discriminate T; reflexivity).
    rewrite RM. destruct (sd_ms s =? 255); cbn [negb]; [eexists; split; reflexivity|].
    rewrite B2, (index_map sd_rough _ _ _ _ E). cbn [bind].
    rewrite Z.shiftl_mul_pow2 by lia. change (2 ^ 10) with 1024. eexists; split; reflexivity. }
  destruct X as (rng & X1 & X2). rewrite X1. cbn [bind]. clear X1.
  rewrite HA.
  set (pok := has_rate t && negb (marks_invalid 14 (sd_rate s))).
  assert (Y : exists pr, (if has_rate t then
            r <- py_index (sat_phase_rate_rough bs) (zlen rs0) ;;
            if negb (Z.land r 0x3FFF =? 0x2000) then Ok (true, f_of_int r)
            else Ok (false, f_of_int 0)
          else Ok (false, f_of_int 0)) = Ok (pok, pr) /\ (pok = true -> pr = f_of_int (sd_rate s))).
  { unfold pok. destruct (has_rate t) eqn:HR; cbn [andb]; [|eexists; split; [reflexivity|discriminate]].
    rewrite (B3 eq_refl), (index_map sd_rate _ _ _ _ E). cbn [bind].
    rewrite (ck_invalid 14); [|lia|reflexivity|reflexivity|
      apply (FS (14%nat, Signed, sd_rate)); destruct t; try discriminate HR; cbn; tauto].
    change (Z.of_nat 14) with 14. destruct (marks_invalid 14 (sd_rate s)); cbn [negb];
      eexists; (split; [reflexivity|]); [discriminate|reflexivity]. }
  destruct Y as (pr & Y1 & Y2). rewrite Y1. cbn [bind]. clear Y1.
  assert (HCC : forall c, In c (cell_columns t) -> Forall (fits c) (m_cells m))
    by (destruct OK as (_ & _ & _ & _ & _ & _ & H); exact H).
  assert (NB : forall b c, blocked t b c = false) by (intros; destruct t; try discriminate T; reflexivity).
  assert (RP : has_range t = true /\ has_phase t = true) by (destruct t; try discriminate T; split; reflexivity).
  destruct RP as [RPr RPp].
  unfold slots_of at 1 2. cbn [snd].
  unfold all_obs at 1. rewrite T.
  pose proof (cells47_row names ND t s (m_cells m) bg (the_scalers t) (the_checkers t) rng_ok rng pok pr
    G1 G2 G3 G4 G5) as C.
  rewrite (C) with (post := cells_of rs1).
  - cbn [bind]. rewrite !entries_add by exact LR.
    specialize (IH (rs0 ++ [(s, row)])). rewrite <- app_assoc in IH. cbn [app] in IH. specialize (IH E).
    assert (Z1 : zlen rs0 + 1 = zlen (rs0 ++ [(s, row)])) by (rewrite zlen_app; reflexivity).
    assert (Z2 : zlen (cells_of rs0) + zlen (row_cells row) = zlen (cells_of (rs0 ++ [(s, row)]))).
    { unfold cells_of. rewrite flat_map_app. cbn [flat_map snd]. rewrite app_nil_r, zlen_app. reflexivity. }
    rewrite Z1, Z2.
    match goal with |- for_each _ (?o, _, _) _ = _ => replace o with (all_obs (rs0 ++ [(s, row)])) end.
    + rewrite B1, HA in IH. exact IH.
    + unfold all_obs. rewrite T. reflexivity.
  - intros Hp. apply G6. unfold pok in Hp. now apply andb_prop in Hp.
  - intros b c I. unfold rep_rng, code_range. rewrite X2, RPr. cbn [andb].
    rewrite (ck_rng_ok t (m_cells m) T HCC c I). destruct rng_ok; [|reflexivity].
    destruct (range_invalid t c); cbn [negb]; [reflexivity|]. unfold metres, the_scalers, CRNG_1MS.
    destruct (extended t); reflexivity.
  - intros b c I. unfold rep_phs, phase_range. rewrite NB, X2, RPp. cbn [andb].
    rewrite (ck_phs_ok t (m_cells m) T HCC c I). destruct rng_ok; [|reflexivity].
    destruct (phase_invalid t c); cbn [negb]; [reflexivity|]. unfold metres, the_scalers, CRNG_1MS.
    destruct (extended t); reflexivity.
  - intros b c I. unfold rep_ltm. rewrite T. f_equal. apply (ltm_ok t (m_cells m) T HCC c I).
  - intros b c I. unfold rep_hca. now rewrite T.
  - intros b c I. unfold rep_c2n. rewrite T. f_equal. apply c2n_ok.
  - intros b c I. unfold rep_dpl, phase_rate. fold pok. destruct pok eqn:P; cbn [andb].
    + rewrite (Y2 eq_refl). unfold pok in P. apply andb_prop in P. destruct P as [P _].
      rewrite (ck_dpl_ok t (m_cells m) T HCC c P I).
      destruct (marks_invalid 15 (cd_rate c)); cbn [negb]; [reflexivity|].
      unfold the_scalers. destruct (extended t); reflexivity.
    + reflexivity.
  - now symmetry.
  - exact MC.
  - now apply entries_shape.
  - now apply entries_shape.
  - now apply entries_shape.
  - now apply entries_shape.
  - now apply entries_shape.
  - now apply entries_shape.
Qed.
End Loop47.

Section Loop13.
Hypothesis T : has_cnr t = false.
Context (bs : bare_sat123) (bg : bare_sgn123).
Hypothesis B2 : sat1_rng_rough bs = map sd_rough (m_sats m).
Hypothesis G1 : has_range t = true -> sgn1_rng_fine bg = map cd_rng (m_cells m).
Hypothesis G2 : has_phase t = true -> sgn1_phase_fine bg = map cd_phs (m_cells m).
Hypothesis G3 : has_phase t = true -> sgn1_lock_time bg = map cd_lock (m_cells m).
Hypothesis G4 : has_phase t = true -> sgn1_hc_indc bg = map cd_half (m_cells m).

Lemma loop13 (a : attributes) (HA : is_msm1 a || is_msm3 a = has_range t)
  (HB : is_msm2 a || is_msm3 a = has_phase t) rs1 : forall rs0, rows = rs0 ++ rs1 ->
  for_each (map slots_of rs1) (all_obs rs0, zlen rs0, zlen (cells_of rs0))
    (fun '(o, sat_idx, sgn_idx) slots =>
       sat <- py_index (map sd_id (m_sats m)) sat_idx ;;
       rough <- py_index (sat1_rng_rough bs) sat_idx ;;
       let rng := f_div (f_of_int rough) (f_of_int 1024) in
       let rng_ok := is_msm1 a || is_msm3 a in
       let ph_ok := is_msm2 a || is_msm3 a in
       '(o, sgn_idx) <- cells13 (slot_fuel slots) names bg sat rng_ok rng ph_ok
                          slots 0 sgn_idx o ;;
       Ok (o, sat_idx + 1, sgn_idx))
  = Ok (all_obs (rs0 ++ rs1), zlen (rs0 ++ rs1), zlen (cells_of (rs0 ++ rs1))).
Proof.
  induction rs1 as [|[s row] rs1 IH]; intros rs0 E; [now rewrite app_nil_r|].
  destruct (row_facts _ _ _ _ E) as (LR & FR & MC & FS).
  cbn [map for_each]. rewrite (index_map sd_id _ _ _ _ E). cbn [bind].
  rewrite B2, (index_map sd_rough _ _ _ _ E). cbn [bind]. cbv zeta. rewrite HA, HB.
  assert (HCC : forall w sg get c, In (w, sg, get) (cell_columns t) -> In c (m_cells m) ->
    match sg with Unsigned => fits_u w (get c) | Signed => fits_s w (get c) end)
    by (destruct OK as (_ & _ & _ & _ & _ & _ & H); exact (cell_fits t (m_cells m) H)).
  unfold slots_of at 1 2. cbn [snd]. unfold all_obs at 1. rewrite T.
  assert (T3 : In t [MSM1; MSM2; MSM3]) by (destruct t; try discriminate T; cbn; tauto).
  pose proof (cells13_row names ND t s (m_cells m) bg T3 G1 G2 G3 G4) as C.
  rewrite (C) with (post := cells_of rs1).
  - cbn [bind]. rewrite !entries_add by exact LR.
    specialize (IH (rs0 ++ [(s, row)])). rewrite <- app_assoc in IH. cbn [app] in IH. specialize (IH E).
    assert (Z1 : zlen rs0 + 1 = zlen (rs0 ++ [(s, row)])) by (rewrite zlen_app; reflexivity).
    assert (Z2 : zlen (cells_of rs0) + zlen (row_cells row) = zlen (cells_of (rs0 ++ [(s, row)]))).
    { unfold cells_of. rewrite flat_map_app. cbn [flat_map snd]. rewrite app_nil_r, zlen_app. reflexivity. }
    rewrite Z1, Z2.
    match goal with |- for_each _ (?o, _, _) _ = _ => replace o with (all_obs (rs0 ++ [(s, row)])) end.
    + rewrite B2, HA, HB in IH. exact IH.
    + unfold all_obs. rewrite T. reflexivity.
  - intros R. apply Forall_forall. intros c I. apply (HCC 15%nat Signed cd_rng); [|exact I].
    destruct t; try discriminate T; try discriminate R; cbn; tauto.
  - intros R. apply Forall_forall. intros c I. apply (HCC 22%nat Signed cd_phs); [|exact I].
    destruct t; try discriminate T; try discriminate R; cbn; tauto.
  - intros R. apply Forall_forall. intros c I. apply (HCC 4%nat Unsigned cd_lock); [|exact I].
    destruct t; try discriminate T; try discriminate R; cbn; tauto.
  - now symmetry.
  - exact MC.
  - now apply entries_shape.
  - now apply entries_shape.
  - now apply entries_shape.
  - now apply entries_shape.
Qed.
End Loop13.
End Loops.

(** ** Signal tables *)
Lemma rnx_lit_ok g k : 1 <= k <= 32 -> rnx_lit (gnss_letter g) k = signal_code g k.
Proof.
  intros H.
  assert (C : forallb (fun k => match rnx_lit (gnss_letter g) k, signal_code g k with
     | Some a, Some b => String.eqb a b | None, None => true | _, _ => false end) (zrange 1 33) = true)
    by (destruct g; vm_compute; reflexivity).
  rewrite forallb_forall in C. assert (I : In k (zrange 1 33)) by (apply zrange_In; lia).
  specialize (C k I). cbv beta in C.
  destruct (rnx_lit (gnss_letter g) k), (signal_code g k); try discriminate; [|reflexivity].
  apply String.eqb_eq in C. now subst.
Qed.

Lemma signal_code_In g k c : signal_code g k = Some c -> In (k, c) (signal_codes g).
Proof.
  unfold signal_code. destruct (find _ _) as [[k' c']|] eqn:E; [|discriminate].
  intros H; inversion H; subst. apply find_some in E. destruct E as [E1 E2]. cbn [fst snd] in *.
  apply Z.eqb_eq in E2. now subst.
Qed.

Lemma crr_frq_ok g k c : signal_code g k = Some c -> crr_frq (gnss_letter g) (Some c) = Ok (carrier g c).
Proof.
  intros H. apply signal_code_In in H.
  assert (F : Forall (fun p => crr_frq (gnss_letter g) (Some (snd p)) = Ok (carrier g (snd p))) (signal_codes g)).
  { destruct g; cbn [signal_codes]; repeat constructor; vm_compute; reflexivity. }
  rewrite Forall_forall in F. exact (F _ H).
Qed.

Lemma signal_code_inj g k k' c : signal_code g k = Some c -> signal_code g k' = Some c -> k = k'.
Proof.
  intros H H'. apply signal_code_In in H. apply signal_code_In in H'.
  assert (C : forallb (fun p => forallb (fun q => negb (String.eqb (snd p) (snd q)) || (fst p =? fst q))
    (signal_codes g)) (signal_codes g) = true) by (destruct g; vm_compute; reflexivity).
  rewrite forallb_forall in C. specialize (C _ H). rewrite forallb_forall in C. specialize (C _ H').
  cbn [fst snd] in C. rewrite String.eqb_refl in C. cbn [negb orb] in C. now apply Z.eqb_eq.
Qed.

Lemma codes_of_spec g sigs codes : codes_of g sigs = Some codes ->
  Forall2 (fun k c => signal_code g k = Some c) sigs codes.
Proof.
  revert codes; induction sigs as [|k sigs IH]; intros codes H; cbn [codes_of] in H.
  - inversion H; constructor.
  - destruct (signal_code g k) eqn:E; [|discriminate]. destruct (codes_of g sigs); [|discriminate].
    inversion H; subst. constructor; [exact E|now apply IH].
Qed.

Lemma codes_nodup g sigs codes : NoDup sigs -> codes_of g sigs = Some codes -> NoDup codes.
Proof.
  intros ND H. apply codes_of_spec in H. induction H as [|k c sigs codes E F IH]; [constructor|].
  inversion ND as [|? ? NI ND']; subst. constructor; [|now apply IH].
  intros I. clear - NI I E F. apply NI.
  induction F as [|k' c' sigs codes E' F IH]; [destruct I|]. destruct I as [->|I].
  - left. eapply signal_code_inj; eassumption.
  - right. apply IH; [|exact I]. intros X; apply NI; now right.
Qed.

Lemma sgns_ok g sigs : Forall (fun k => 1 <= k <= 32) sigs ->
  map_res (fun s => f <- crr_frq (gnss_letter g) s ;;
                    match s with Some s => Ok (s, f) | None => Err EKey end)
    (map (rnx_lit (gnss_letter g)) sigs)
  = match codes_of g sigs with
    | Some codes => Ok (map (fun c => (c, carrier g c)) codes)
    | None => Err EKey
    end.
Proof.
  induction 1 as [|k sigs Hk HF IH]; [reflexivity|].
  cbn [map map_res codes_of]. rewrite rnx_lit_ok by exact Hk.
  destruct (signal_code g k) as [c|] eqn:E.
  - rewrite (crr_frq_ok g k c E). cbn [bind]. rewrite IH. destruct (codes_of g sigs); reflexivity.
  - assert (X : crr_frq (gnss_letter g) None = Err EKey) by (destruct g; reflexivity).
    rewrite X. reflexivity.
Qed.

Lemma sorted_nodup l : StronglySorted Z.lt l -> NoDup l.
Proof.
  induction 1 as [|a l HS IH HF]; constructor; [|exact IH].
  intros X. rewrite Forall_forall in HF. specialize (HF a X). lia.
Qed.

(** ** Texts and time *)
Lemma texts_ok m : header_ok m ->
  unpack_clk_steer (m_steering m) = text_of ["OFF"; "ON"] "UNDEF" (m_steering m) /\
  unpack_clk_ext (m_ext_clock m) = text_of ["INTERNAL"; "EXT-LOCK"; "EXT-UNLOCK"] "UNDEF" (m_ext_clock m) /\
  unpack_smth_indc (m_smooth m) = text_of ["UNDEF"; "DVRG-FREE"] "UNDEF" (m_smooth m) /\
  unpack_smth_intr (m_smooth_int m) = text_of ["NOSMTH"; "00-30"; "30-60"; "60-120"; "120-240"; "240-480"; "480+"]
                       "UNLIM" (m_smooth_int m).
Proof.
  intros (_ & _ & _ & _ & _ & H1 & H2 & H3 & H4). unfold fits_u in *.
  assert (L : forall n v, 0 <= v < 2 ^ Z.of_nat n -> In v (zrange 0 (2 ^ Z.of_nat n)))
    by (intros; apply zrange_In; lia).
  apply L in H1, H2, H3, H4. cbn in H1, H2, H3, H4.
  repeat split.
  - repeat (destruct H1 as [<-|H1]; [reflexivity|]). destruct H1.
  - repeat (destruct H2 as [<-|H2]; [reflexivity|]). destruct H2.
  - repeat (destruct H3 as [<-|H3]; [reflexivity|]). destruct H3.
  - repeat (destruct H4 as [<-|H4]; [reflexivity|]). destruct H4.
Qed.

Lemma bare_of_parts m : bare_atr (bare_of m) = attributes_of m /\ bare_header (bare_of m) = bare_header_of m.
Proof. unfold bare_of. destruct (m_type m); split; reflexivity. Qed.

Lemma letter_R g : String.eqb (gnss_letter g) "R" = match g with GLO => true | _ => false end.
Proof. destruct g; reflexivity. Qed.

Lemma time_ok m : header_ok m -> bare_time (bare_of m) = epoch_time m /\ bare_day (bare_of m) = epoch_day m.
Proof.
  intros (_ & HE & _). unfold fits_u in HE. unfold bare_time, bare_day.
  destruct (bare_of_parts m) as [-> ->]. cbn [attributes_of bare_header_of a_gnss h_time].
  rewrite letter_R. unfold epoch_time, epoch_day. destruct (m_gnss m); try (split; reflexivity).
  change 0x7FFFFFF with (Z.ones 27). change 0x07 with (Z.ones 3).
  rewrite !Z.land_ones by lia. rewrite Z.shiftr_div_pow2 by lia. split; [reflexivity|].
  apply Z.mod_small. change (2 ^ Z.of_nat 30) with 1073741824 in HE. change (2 ^ 27) with 134217728.
  change (2 ^ 3) with 8. lia.
Qed.

(** ** The whole conversion *)
Lemma dict_final {V} (val : sat_data -> list (option cell_data) -> cell_data -> option V) names rows :
  NoDup names ->
  obs_prune names (combine names (entries_list val rows (length names))) = Ok (table val names rows).
Proof.
  intros ND. rewrite obs_prune_ok; [now rewrite entries_table|exact ND|apply entries_fst].
Qed.

Lemma slots_start {V} (val : sat_data -> list (option cell_data) -> cell_data -> option V) names :
  NoDup names -> obs_slots names = combine names (entries_list val [] (length names)).
Proof. intros ND. rewrite obs_slots_ok by exact ND. reflexivity. Qed.

Lemma convert_ok m : msm_ok m -> msm_nonempty m ->
  convert (Some (bare_of m)) =
  match codes_of (m_gnss m) (m_sigs m) with
  | Some codes => Ok (Some (scaled_of m codes))
  | None => Err EKey
  end.
Proof.
  intros OK NE. pose proof OK as (HH & HS & HG & HR & H64 & HSC & HCC).
  unfold convert. destruct (bare_of_parts m) as [EA EH]. rewrite EA, EH.
  assert (GL : forall g, String.eqb (gnss_letter g) "" = false) by (intros []; reflexivity).
  cbn [attributes_of a_gnss]. rewrite GL. rewrite (mask_nonzero m OK NE).
  destruct (texts_ok m HH) as (X1 & X2 & X3 & X4).
  cbn [bare_header_of h_rs_id h_MMB h_IODS h_clk_steer h_clk_ext h_smth_indc h_smth_intr h_sgn_mask h_sat_mask h_cell_mask].
  rewrite X1, X2, X3, X4. clear X1 X2 X3 X4.
  rewrite !mask_members_ok by (try assumption; lia).
  rewrite sgns_ok by apply HG.
  destruct (codes_of (m_gnss m) (m_sigs m)) as [codes|] eqn:EC; [|reflexivity].
  cbn [bind]. rewrite map_map. cbn [fst]. rewrite map_id.
  assert (NDs : NoDup (m_sigs m)) by (apply sorted_nodup, HG).
  pose proof (codes_nodup _ _ _ NDs EC) as ND.
  assert (LN : length codes = length (m_sigs m))
    by (apply codes_of_spec in EC; clear - EC; induction EC; cbn; congruence).
  rewrite fold_sset by (cbn [app]; rewrite map_map; cbn [fst]; now rewrite map_id).
  rewrite bit_count_lsb, count_mask by (try assumption; lia).
  assert (ZS : zlen (map sd_id (m_sats m)) = zlen (m_rows m))
    by (rewrite zlen_map; unfold m_sats; now rewrite zlen_map).
  rewrite ZS. unfold cell_bits.
  rewrite slots_ok; [|apply Forall_impl with (2 := HR); intros r Hr; unfold zlen; now rewrite Hr|apply zlen_nonneg].
  destruct (time_ok m HH) as [-> ->].
  assert (O : (match bare_of m with
            | Bare4567 a _ s g => convert_obs47 a s g codes (map sd_id (m_sats m)) (map slots_of (m_rows m))
            | Bare123 a _ s g => convert_obs13 a s g codes (map sd_id (m_sats m)) (map slots_of (m_rows m))
            end) = Ok (scaled_obs m codes)).
  { destruct (has_cnr (m_type m)) eqn:T.
    - set (bs := match bare_of m with Bare4567 _ _ s _ => s | _ =>
         {| sat_rng_ms := []; sat_ext_info := []; sat_rng_rough := []; sat_phase_rate_rough := [] |} end).
      set (bg := match bare_of m with Bare4567 _ _ _ g => g | _ =>
         {| sgn_rng_fine := []; sgn_phase_fine := []; sgn_lock_time := []; sgn_hc_indc := []; sgn_c2n := [];
            sgn_phase_rate_fine := [] |} end).
      assert (EB : bare_of m = Bare4567 (attributes_of m) (bare_header_of m) bs bg).
      { unfold bs, bg, bare_of. destruct (m_type m); try discriminate T; reflexivity. }
      rewrite EB. unfold convert_obs47.
      replace (if is_msm7 (attributes_of m) || is_msm6 (attributes_of m) then (SCALERS67, CHECKERS67)
                   else (SCALERS45, CHECKERS45)) with (the_scalers (m_type m), the_checkers (m_type m))
        by (unfold the_scalers, the_checkers, is_msm7, is_msm6, attributes_of; cbn [a_subset];
            destruct (m_type m); reflexivity).
      assert (HA : is_msm7 (attributes_of m) || is_msm5 (attributes_of m) = has_rate (m_type m))
        by (unfold is_msm7, is_msm5, attributes_of; cbn [a_subset]; destruct (m_type m); reflexivity).
      pose proof (loop47 m codes OK ND LN T bs bg) as L.
      specialize (L ltac:(unfold bs, bare_of; destruct (m_type m); try discriminate T; reflexivity)).
      specialize (L ltac:(unfold bs, bare_of; destruct (m_type m); try discriminate T; reflexivity)).
      specialize (L ltac:(unfold bs, bare_of; destruct (m_type m); try discriminate T; intros X;
                          try discriminate X; reflexivity)).
      specialize (L ltac:(unfold bg, bare_of; destruct (m_type m); try discriminate T; reflexivity)).
      specialize (L ltac:(unfold bg, bare_of; destruct (m_type m); try discriminate T; reflexivity)).
      specialize (L ltac:(unfold bg, bare_of; destruct (m_type m); try discriminate T; reflexivity)).
      specialize (L ltac:(unfold bg, bare_of; destruct (m_type m); try discriminate T; reflexivity)).
      specialize (L ltac:(unfold bg, bare_of; destruct (m_type m); try discriminate T; reflexivity)).
      specialize (L ltac:(unfold bg, bare_of; destruct (m_type m); try discriminate T; intros X;
                          try discriminate X; reflexivity)).
      specialize (L (attributes_of m) HA (m_rows m) [] eq_refl).
      assert (A0 : all_obs m codes [] =
        {| o_rng := obs_slots codes; o_phs := obs_slots codes; o_ltm := obs_slots codes;
           o_hca := obs_slots codes; o_dpl := obs_slots codes; o_c2n := obs_slots codes |}).
      { unfold all_obs. rewrite T. rewrite !obs_slots_ok by exact ND. reflexivity. }
      rewrite A0 in L. put_step L. clear L A0. unfold all_obs. rewrite T.
      cbn [o_rng o_phs o_ltm o_hca o_dpl o_c2n app]. rewrite !dict_final by exact ND. reflexivity.
    - set (bs := match bare_of m with Bare123 _ _ s _ => s | _ => {| sat1_rng_rough := [] |} end).
      set (bg := match bare_of m with Bare123 _ _ _ g => g | _ =>
         {| sgn1_rng_fine := []; sgn1_phase_fine := []; sgn1_lock_time := []; sgn1_hc_indc := [] |} end).
      assert (EB : bare_of m = Bare123 (attributes_of m) (bare_header_of m) bs bg).
      { unfold bs, bg, bare_of. destruct (m_type m); try discriminate T; reflexivity. }
      rewrite EB. unfold convert_obs13.
      assert (HA : is_msm1 (attributes_of m) || is_msm3 (attributes_of m) = has_range (m_type m))
        by (unfold is_msm1, is_msm3, attributes_of; cbn [a_subset]; destruct (m_type m); try discriminate T; reflexivity).
      assert (HB : is_msm2 (attributes_of m) || is_msm3 (attributes_of m) = has_phase (m_type m))
        by (unfold is_msm2, is_msm3, attributes_of; cbn [a_subset]; destruct (m_type m); try discriminate T; reflexivity).
      pose proof (loop13 m codes OK ND LN T bs bg) as L.
      specialize (L ltac:(unfold bs, bare_of; destruct (m_type m); try discriminate T; reflexivity)).
      specialize (L ltac:(unfold bg, bare_of; destruct (m_type m); try discriminate T; intros X;
                          try discriminate X; reflexivity)).
      specialize (L ltac:(unfold bg, bare_of; destruct (m_type m); try discriminate T; intros X;
                          try discriminate X; reflexivity)).
      specialize (L ltac:(unfold bg, bare_of; destruct (m_type m); try discriminate T; intros X;
                          try discriminate X; reflexivity)).
      specialize (L ltac:(unfold bg, bare_of; destruct (m_type m); try discriminate T; intros X;
                          try discriminate X; reflexivity)).
      specialize (L (attributes_of m) HA HB (m_rows m) [] eq_refl).
      assert (A0 : all_obs m codes [] =
        {| o_rng := obs_slots codes; o_phs := obs_slots codes; o_ltm := obs_slots codes;
           o_hca := obs_slots codes; o_dpl := []; o_c2n := [] |}).
      { unfold all_obs. rewrite T. rewrite !obs_slots_ok by exact ND. reflexivity. }
      rewrite A0 in L. put_step L. clear L A0. unfold all_obs. rewrite T.
      cbn [o_rng o_phs o_ltm o_hca o_dpl o_c2n app]. rewrite !dict_final by exact ND. cbn [bind].
      unfold scaled_obs. rewrite (table_none (rep_dpl (m_type m))), (table_none (rep_c2n (m_type m))).
      + reflexivity.
      + intros. unfold rep_c2n. now rewrite T.
      + intros. unfold rep_dpl, phase_rate. destruct (m_type m); try discriminate T; reflexivity. }
  rewrite O. cbn [bind]. reflexivity.
Qed.
