(** * MsmScaleProofs: the scaled MSM object is the one [MsmScaleSpec] prescribes. *)
From Coq Require Import Sorted.
From Verif Require Import PyBase PyDict PyFloat BitsModel BitsSpec BitsProofs TablesModel
  MessageSpec ReadProofs MsmModel MsmSpec MsmProofs MsmScaleSpec.
Local Open Scope list_scope.
Local Open Scope Z_scope.

Lemma py_index_app {A} (a : list A) x b i : i = zlen a -> py_index (a ++ x :: b) i = Ok x.
Proof.
  intros ->. unfold py_index. pose proof (zlen_nonneg a).
  replace (zlen a <? 0) with false by lia. replace (zlen a <? 0) with false by lia.
  unfold zlen. rewrite Nat2Z.id, nth_error_app2, Nat.sub_diag by lia. reflexivity.
Qed.

(** ** Dictionaries as names zipped with entry lists *)
Definition add1 {V} (sat : Z) (l : list (Z * V)) (ov : option V) : list (Z * V) :=
  match ov with Some v => l ++ [(sat, v)] | None => l end.
Fixpoint addrow {V} (sat : Z) (L : list (list (Z * V))) (vals : list (option V))
  : list (list (Z * V)) :=
  match L, vals with
  | l :: L, v :: vs => add1 sat l v :: addrow sat L vs
  | _, _ => L
  end.

Definition fresh_in {V} (sat : Z) (l : list (Z * V)) : Prop := ~ In sat (map fst l).

Lemma combine_split {A B} (a1 a2 : list A) (b1 b2 : list B) :
  length a1 = length b1 -> combine (a1 ++ a2) (b1 ++ b2) = combine a1 b1 ++ combine a2 b2.
Proof.
  revert b1; induction a1 as [|x a1 IH]; intros [|y b1] H; cbn in *; try discriminate; [reflexivity|].
  rewrite IH by lia. reflexivity.
Qed.

Lemma combine_keys {A B} (a : list A) (b : list B) : length a = length b -> map fst (combine a b) = a.
Proof. revert b; induction a as [|x a IH]; intros [|y b] H; cbn in *; try discriminate; [reflexivity|]. now rewrite IH by lia. Qed.

Lemma obs_put_ok {V} (n1 n2 : list string) s (L1 L2 : list (list (Z * V))) l sat v :
  NoDup (n1 ++ s :: n2) -> length n1 = length L1 -> fresh_in sat l ->
  obs_put (combine (n1 ++ s :: n2) (L1 ++ l :: L2)) s sat v
  = Ok (combine (n1 ++ s :: n2) (L1 ++ (l ++ [(sat, v)]) :: L2)).
Proof.
  intros ND HL HF. unfold obs_put.
  rewrite !combine_split by assumption. cbn [combine].
  apply NoDup_remove_2 in ND. rewrite in_app_iff in ND.
  assert (N1 : ~ In s (map fst (combine n1 L1))) by (rewrite combine_keys by assumption; tauto).
  assert (G : sget (combine n1 L1 ++ (s, l) :: combine n2 L2) s = Some l).
  { clear - N1. induction (combine n1 L1) as [|[k x] d IH]; cbn [app].
    - unfold sget. cbn [dget]. now rewrite String.eqb_refl.
    - unfold sget in *. cbn [dget]. cbn in N1. destruct (String.eqb_spec s k); [subst; tauto|].
      apply IH; tauto. }
  unfold sindex, dindex. unfold sget in G. rewrite G. cbn [bind]. f_equal.
  unfold sset. rewrite (dset_in String.eqb string_eqb_spec) by assumption.
  unfold zset. rewrite (dset_new Z.eqb z_eqb_spec) by assumption. reflexivity.
Qed.

(** ** Values of one row *)
Fixpoint row_vals {V} (val : list (option cell_data) -> cell_data -> option V)
  (before row : list (option cell_data)) : list (option V) :=
  match row with
  | [] => []
  | o :: r => match o with Some c => val before c | None => None end :: row_vals val (before ++ [o]) r
  end.

Lemma row_vals_nth {V} (val : list (option cell_data) -> cell_data -> option V) row : forall before j,
  nth j (row_vals val before row) None
  = match nth j row None with Some c => val (before ++ firstn j row) c | None => None end.
Proof.
  induction row as [|o r IH]; intros before j; cbn [row_vals].
  - destruct j; reflexivity.
  - destruct j as [|j]; cbn [nth firstn].
    + destruct o; [now rewrite app_nil_r|reflexivity].
    + rewrite IH. rewrite <- app_assoc. reflexivity.
Qed.

Lemma row_vals_length {V} (val : list (option cell_data) -> cell_data -> option V) row :
  forall before, length (row_vals val before row) = length row.
Proof. induction row; intros; cbn; [reflexivity|]. now rewrite IHrow. Qed.

Lemma lsb_zero_none row : lsb_value (map present row) = 0 -> Forall (fun o => o = None) row.
Proof.
  induction row as [|o r IH]; cbn [map lsb_value]; intros H; constructor.
  - destruct o; [|reflexivity]. cbn [present Z.b2z] in H. pose proof (lsb_value_nonneg (map present r)). lia.
  - apply IH. destruct o; cbn [present Z.b2z] in H; pose proof (lsb_value_nonneg (map present r)); lia.
Qed.

Lemma none_row_cells row : Forall (fun o => o = None) row -> row_cells row = [].
Proof. induction 1 as [|o r -> H IH]; [reflexivity|]. exact IH. Qed.

Lemma none_addrow {V} sat val row : Forall (fun o => o = None) row -> forall before (L : list (list (Z * V))),
  addrow sat L (row_vals val before row) = L.
Proof.
  induction 1 as [|o r -> H IH]; intros before L; cbn [row_vals addrow]; [now destruct L|].
  destruct L; [reflexivity|]. cbn [addrow add1]. now rewrite IH.
Qed.

Lemma lsb_cons b l : Z.land (lsb_value (b :: l)) 1 = Z.b2z b /\ Z.shiftr (lsb_value (b :: l)) 1 = lsb_value l.
Proof.
  cbn [lsb_value]. pose proof (lsb_value_nonneg l). change 1 with (Z.ones 1) at 1.
  rewrite Z.land_ones by lia. rewrite Z.shiftr_div_pow2 by lia.
  change (2 ^ 1) with 2. destruct b; cbn [Z.b2z]; split; lia.
Qed.

Lemma add1_opt {V} (n1 n2 : list string) s (L1 L2 : list (list (Z * V))) l sat ov :
  NoDup (n1 ++ s :: n2) -> length n1 = length L1 -> fresh_in sat l ->
  (match ov with Some v => obs_put (combine (n1 ++ s :: n2) (L1 ++ l :: L2)) s sat v
                | None => Ok (combine (n1 ++ s :: n2) (L1 ++ l :: L2)) end)
  = Ok (combine (n1 ++ s :: n2) (L1 ++ add1 sat l ov :: L2)).
Proof. intros A B C. destruct ov; cbn [add1]; [now apply obs_put_ok|reflexivity]. Qed.

(** Shape of one dictionary in the middle of a row: the first signals done, the rest not yet
    touched by satellite [sat]. *)
Definition shape {V} (names n1 n2 : list string) (sat : Z) (L1 L2 : list (list (Z * V))) : Prop :=
  length L1 = length n1 /\ length L2 = length n2 /\ Forall (fresh_in sat) L2.

(** Rewrite the first computation of a [bind] (up to conversion). *)
Ltac put_step U :=
  match type of U with ?l = ?r =>
    match goal with |- bind ?x ?k = ?R => change (bind l k = R); rewrite U; cbn [bind] end end.

Lemma slot_fuel_enough slots : 0 <= slots -> slots < 2 ^ Z.of_nat (slot_fuel slots).
Proof.
  intros H. unfold slot_fuel.
  destruct (Z.eq_dec slots 0) as [->|N]; [reflexivity|].
  pose proof (Z.log2_spec slots ltac:(lia)) as L. pose proof (Z.log2_nonneg slots).
  rewrite Z2Nat.id by lia. rewrite Z.add_1_r. lia.
Qed.
Lemma row_fuel row : lsb_value (map present row) < 2 ^ Z.of_nat (slot_fuel (lsb_value (map present row))).
Proof. apply slot_fuel_enough, lsb_value_nonneg. Qed.

Section Cells47.
Context (names : list string) (ND : NoDup names).
Context (t : msm_type) (s : sat_data) (all : list cell_data) (g : bare_sgn4567)
        (sc : scalers) (ck : checkers) (rng_ok : bool) (rng : flt) (pok : bool) (pr : flt).
Hypothesis G1 : sgn_rng_fine g = map cd_rng all.
Hypothesis G2 : sgn_phase_fine g = map cd_phs all.
Hypothesis G3 : sgn_lock_time g = map cd_lock all.
Hypothesis G4 : sgn_hc_indc g = map cd_half all.
Hypothesis G5 : sgn_c2n g = map cd_cnr all.
Hypothesis G6 : pok = true -> sgn_phase_rate_fine g = map cd_rate all.
Hypothesis V1 : forall b c, In c all ->
  (if rng_ok then if ck_rng ck (cd_rng c)
     then Some (f_mul (f_add rng (f_mul (f_of_int (cd_rng c)) (sc_rng sc))) CRNG_1MS) else None
   else None) = rep_rng t s b c.
Hypothesis V2 : forall b c, In c all ->
  (if rng_ok then if ck_phs ck (cd_phs c)
     then Some (f_mul (f_add rng (f_mul (f_of_int (cd_phs c)) (sc_phs sc))) CRNG_1MS) else None
   else None) = rep_phs t s b c.
Hypothesis V3 : forall b c, In c all -> Some (sc_ltm sc (cd_lock c)) = rep_ltm t s b c.
Hypothesis V4 : forall b c, In c all -> Some (negb (cd_half c =? 0)) = rep_hca t s b c.
Hypothesis V5 : forall b c, In c all -> Some (f_mul (f_of_int (cd_cnr c)) (sc_c2n sc)) = rep_c2n t s b c.
Hypothesis V6 : forall b c, In c all ->
  (if pok then if ck_dpl ck (cd_rate c)
     then Some (f_add pr (f_mul (f_of_int (cd_rate c)) (sc_dpl sc))) else None
   else None) = rep_dpl t s b c.

Lemma cells47_ok row : forall before n1 n2 pre post fuel A1 A2 B1 B2 C1 C2 D1 D2 E1 E2 F1 F2,
  names = n1 ++ n2 -> length n1 = length before -> length n2 = length row ->
  all = pre ++ row_cells row ++ post ->
  lsb_value (map present row) < 2 ^ Z.of_nat fuel ->
  shape names n1 n2 (sd_id s) A1 A2 -> shape names n1 n2 (sd_id s) B1 B2 ->
  shape names n1 n2 (sd_id s) C1 C2 -> shape names n1 n2 (sd_id s) D1 D2 ->
  shape names n1 n2 (sd_id s) E1 E2 -> shape names n1 n2 (sd_id s) F1 F2 ->
  cells47 fuel names g sc ck (sd_id s) rng_ok rng pok pr (lsb_value (map present row))
    (zlen before) (zlen pre)
    {| o_rng := combine names (A1 ++ A2); o_phs := combine names (B1 ++ B2);
       o_ltm := combine names (C1 ++ C2); o_hca := combine names (D1 ++ D2);
       o_dpl := combine names (E1 ++ E2); o_c2n := combine names (F1 ++ F2) |}
  = Ok ({| o_rng := combine names (A1 ++ addrow (sd_id s) A2 (row_vals (rep_rng t s) before row));
           o_phs := combine names (B1 ++ addrow (sd_id s) B2 (row_vals (rep_phs t s) before row));
           o_ltm := combine names (C1 ++ addrow (sd_id s) C2 (row_vals (rep_ltm t s) before row));
           o_hca := combine names (D1 ++ addrow (sd_id s) D2 (row_vals (rep_hca t s) before row));
           o_dpl := combine names (E1 ++ addrow (sd_id s) E2 (row_vals (rep_dpl t s) before row));
           o_c2n := combine names (F1 ++ addrow (sd_id s) F2 (row_vals (rep_c2n t s) before row)) |},
        zlen pre + zlen (row_cells row)).
Proof.
  induction row as [|o row IH];
    intros before n1 n2 pre post fuel A1 A2 B1 B2 C1 C2 D1 D2 E1 E2 F1 F2 HN L1 L2 HA HF SA SB SC SD SE SF.
  - change (zlen (row_cells [])) with 0. rewrite Z.add_0_r.
    destruct A2, B2, C2, D2, E2, F2; destruct fuel; reflexivity.
  - destruct (lsb_value (map present (o :: row)) =? 0) eqn:Z0.
    + apply Z.eqb_eq in Z0. pose proof (lsb_zero_none _ Z0) as N.
      do 3 rewrite (none_addrow (V := flt) (sd_id s) _ _ N).
      rewrite (none_addrow (V := Z) (sd_id s) _ _ N), (none_addrow (V := bool) (sd_id s) _ _ N).
      rewrite (none_addrow (V := flt) (sd_id s) _ _ N). rewrite none_row_cells by assumption.
      rewrite Z0. change (zlen (@nil cell_data)) with 0. rewrite Z.add_0_r. destruct fuel; reflexivity.
    + destruct n2 as [|sg n2]; [discriminate|]. cbn [length] in L2.
      destruct A2 as [|a A2]; [destruct SA as (_ & X & _); discriminate|].
      destruct B2 as [|b B2]; [destruct SB as (_ & X & _); discriminate|].
      destruct C2 as [|c C2]; [destruct SC as (_ & X & _); discriminate|].
      destruct D2 as [|d D2]; [destruct SD as (_ & X & _); discriminate|].
      destruct E2 as [|e E2]; [destruct SE as (_ & X & _); discriminate|].
      destruct F2 as [|f F2]; [destruct SF as (_ & X & _); discriminate|].
      destruct SA as (SA1 & SA2 & SA3); destruct SB as (SB1 & SB2 & SB3);
      destruct SC as (SC1 & SC2 & SC3); destruct SD as (SD1 & SD2 & SD3);
      destruct SE as (SE1 & SE2 & SE3); destruct SF as (SF1 & SF2 & SF3).
      inversion SA3 as [|? ? FA SA4]; subst. inversion SB3 as [|? ? FB SB4]; subst.
      inversion SC3 as [|? ? FC SC4]; subst. inversion SD3 as [|? ? FD SD4]; subst.
      inversion SE3 as [|? ? FE SE4]; subst. inversion SF3 as [|? ? FF SF4]; subst.
      destruct fuel as [|fuel].
      { pose proof (lsb_value_nonneg (map present (o :: row))).
        change (2 ^ Z.of_nat 0) with 1 in HF. apply Z.eqb_neq in Z0. lia. }
      cbn [cells47]. rewrite Z0.
      rewrite py_index_app by (unfold zlen; congruence). cbn [bind].
      cbn [map]. destruct (lsb_cons (present o) (map present row)) as [X1 X2]. rewrite X1, X2.
      assert (HF' : lsb_value (map present row) < 2 ^ Z.of_nat fuel).
      { cbn [map lsb_value] in HF. rewrite Nat2Z.inj_succ, Z.pow_succ_r in HF by lia.
        destruct (present o); cbn [Z.b2z] in HF; lia. }
      assert (HB : zlen before + 1 = zlen (before ++ [o])) by (rewrite zlen_app; reflexivity).
      rewrite HB.
      assert (AP : forall (W : Type) (Q1 Q2 : list W) q, Q1 ++ q :: Q2 = (Q1 ++ [q]) ++ Q2)
        by (intros; now rewrite <- app_assoc).
      destruct o as [cl|]; cbn [present Z.b2z].
      * change (1 =? 0) with false. cbv iota.
        cbn [row_cells flat_map app] in G1, G2, G3, G4, G5, G6.
        assert (I : In cl (pre ++ row_cells (Some cl :: row) ++ post))
          by (rewrite in_app_iff; right; cbn; tauto).
        assert (PI : forall get : cell_data -> Z,
          py_index (map get (pre ++ row_cells (Some cl :: row) ++ post)) (zlen pre) = Ok (get cl)).
        { intros get. rewrite map_app. cbn [row_cells flat_map app map].
          apply py_index_app. now rewrite zlen_map. }
        (* the six updates *)
        assert (U1 : (if rng_ok then
           f0 <- py_index (sgn_rng_fine g) (zlen pre) ;;
           if ck_rng ck f0
           then obs_put (combine (n1 ++ sg :: n2) (A1 ++ a :: A2)) sg (sd_id s)
                  (f_mul (f_add rng (f_mul (f_of_int f0) (sc_rng sc))) CRNG_1MS)
           else Ok (combine (n1 ++ sg :: n2) (A1 ++ a :: A2))
         else Ok (combine (n1 ++ sg :: n2) (A1 ++ a :: A2)))
         = Ok (combine (n1 ++ sg :: n2) (A1 ++ add1 (sd_id s) a (rep_rng t s before cl) :: A2))).
        { rewrite <- (add1_opt n1 n2 sg A1 A2 a (sd_id s)) by (try assumption; congruence).
          rewrite <- (V1 before cl I). rewrite G1, PI. cbn [bind].
          destruct rng_ok; [|reflexivity]. destruct (ck_rng ck (cd_rng cl)); reflexivity. }
        assert (U2 : (if rng_ok then
           f0 <- py_index (sgn_phase_fine g) (zlen pre) ;;
           if ck_phs ck f0
           then obs_put (combine (n1 ++ sg :: n2) (B1 ++ b :: B2)) sg (sd_id s)
                  (f_mul (f_add rng (f_mul (f_of_int f0) (sc_phs sc))) CRNG_1MS)
           else Ok (combine (n1 ++ sg :: n2) (B1 ++ b :: B2))
         else Ok (combine (n1 ++ sg :: n2) (B1 ++ b :: B2)))
         = Ok (combine (n1 ++ sg :: n2) (B1 ++ add1 (sd_id s) b (rep_phs t s before cl) :: B2))).
        { rewrite <- (add1_opt n1 n2 sg B1 B2 b (sd_id s)) by (try assumption; congruence).
          rewrite <- (V2 before cl I). rewrite G2, PI. cbn [bind].
          destruct rng_ok; [|reflexivity]. destruct (ck_phs ck (cd_phs cl)); reflexivity. }
        assert (U6 : (if pok then
           f0 <- py_index (sgn_phase_rate_fine g) (zlen pre) ;;
           if ck_dpl ck f0
           then obs_put (combine (n1 ++ sg :: n2) (E1 ++ e :: E2)) sg (sd_id s)
                  (f_add pr (f_mul (f_of_int f0) (sc_dpl sc)))
           else Ok (combine (n1 ++ sg :: n2) (E1 ++ e :: E2))
         else Ok (combine (n1 ++ sg :: n2) (E1 ++ e :: E2)))
         = Ok (combine (n1 ++ sg :: n2) (E1 ++ add1 (sd_id s) e (rep_dpl t s before cl) :: E2))).
        { rewrite <- (add1_opt n1 n2 sg E1 E2 e (sd_id s)) by (try assumption; congruence).
          rewrite <- (V6 before cl I).
          destruct pok eqn:P; [|reflexivity]. rewrite G6, PI by reflexivity. cbn [bind].
          destruct (ck_dpl ck (cd_rate cl)); reflexivity. }
        cbn [o_rng o_phs o_ltm o_hca o_dpl o_c2n].
        put_step U1. put_step U2. put_step U6. clear U1 U2 U6.
        rewrite G3, G4, G5, !PI. cbn [bind].
        pose proof (add1_opt n1 n2 sg C1 C2 c (sd_id s) (rep_ltm t s before cl)) as U3.
        rewrite <- (V3 before cl I) in U3. cbv iota in U3. rewrite U3 by (try assumption; congruence).
        cbn [bind]. clear U3.
        pose proof (add1_opt n1 n2 sg F1 F2 f (sd_id s) (rep_c2n t s before cl)) as U5.
        rewrite <- (V5 before cl I) in U5. cbv iota in U5. rewrite U5 by (try assumption; congruence).
        cbn [bind]. clear U5.
        pose proof (add1_opt n1 n2 sg D1 D2 d (sd_id s) (rep_hca t s before cl)) as U4.
        rewrite <- (V4 before cl I) in U4. cbv iota in U4. rewrite U4 by (try assumption; congruence).
        cbn [bind]. clear U4.
        cbn [row_vals addrow].
        rewrite <- (V3 before cl I), <- (V4 before cl I), <- (V5 before cl I).
        replace (zlen pre + 1) with (zlen (pre ++ [cl])) by (rewrite zlen_app; reflexivity).
        rewrite (AP _ A1 A2), (AP _ A1 (addrow (sd_id s) A2 _)), (AP _ B1 B2), (AP _ B1 (addrow (sd_id s) B2 _)),
          (AP _ C1 C2), (AP _ C1 (addrow (sd_id s) C2 _)), (AP _ D1 D2), (AP _ D1 (addrow (sd_id s) D2 _)),
          (AP _ E1 E2), (AP _ E1 (addrow (sd_id s) E2 _)), (AP _ F1 F2), (AP _ F1 (addrow (sd_id s) F2 _)).
        rewrite (IH (before ++ [Some cl]) (n1 ++ [sg]) n2 (pre ++ [cl]) post fuel).
        -- rewrite zlen_app. cbn [row_cells flat_map app]. fold (row_cells row).
           change (Some cl :: row) with ([Some cl] ++ row).
           replace (zlen (row_cells (Some cl :: row))) with (1 + zlen (row_cells row))
             by (cbn [row_cells flat_map app]; rewrite zlen_cons; reflexivity).
           f_equal. f_equal. change (zlen [cl]) with 1. cbn [row_cells flat_map app].
           rewrite zlen_cons. unfold row_cells. lia.
        -- now rewrite <- app_assoc.
        -- rewrite !app_length. cbn. lia.
        -- lia.
        -- cbn [row_cells flat_map app]. rewrite <- app_assoc. reflexivity.
        -- exact HF'.
        -- repeat split; [rewrite !app_length; cbn; lia|cbn in SA2; lia|exact SA4].
        -- repeat split; [rewrite !app_length; cbn; lia|cbn in SB2; lia|exact SB4].
        -- repeat split; [rewrite !app_length; cbn; lia|cbn in SC2; lia|exact SC4].
        -- repeat split; [rewrite !app_length; cbn; lia|cbn in SD2; lia|exact SD4].
        -- repeat split; [rewrite !app_length; cbn; lia|cbn in SE2; lia|exact SE4].
        -- repeat split; [rewrite !app_length; cbn; lia|cbn in SF2; lia|exact SF4].
      * change (0 =? 0) with true. cbv iota. cbn [row_vals addrow add1].
        rewrite (AP _ A1 A2), (AP _ A1 (addrow (sd_id s) A2 _)), (AP _ B1 B2), (AP _ B1 (addrow (sd_id s) B2 _)),
          (AP _ C1 C2), (AP _ C1 (addrow (sd_id s) C2 _)), (AP _ D1 D2), (AP _ D1 (addrow (sd_id s) D2 _)),
          (AP _ E1 E2), (AP _ E1 (addrow (sd_id s) E2 _)), (AP _ F1 F2), (AP _ F1 (addrow (sd_id s) F2 _)).
        rewrite (IH (before ++ [None]) (n1 ++ [sg]) n2 pre post fuel).
        -- reflexivity.
        -- now rewrite <- app_assoc.
        -- rewrite !app_length. cbn. lia.
        -- lia.
        -- reflexivity.
        -- exact HF'.
        -- repeat split; [rewrite !app_length; cbn; lia|cbn in SA2; lia|exact SA4].
        -- repeat split; [rewrite !app_length; cbn; lia|cbn in SB2; lia|exact SB4].
        -- repeat split; [rewrite !app_length; cbn; lia|cbn in SC2; lia|exact SC4].
        -- repeat split; [rewrite !app_length; cbn; lia|cbn in SD2; lia|exact SD4].
        -- repeat split; [rewrite !app_length; cbn; lia|cbn in SE2; lia|exact SE4].
        -- repeat split; [rewrite !app_length; cbn; lia|cbn in SF2; lia|exact SF4].
Qed.

Corollary cells47_row row pre post A B C D E F :
  length names = length row -> all = pre ++ row_cells row ++ post ->
  shape names [] names (sd_id s) [] A ->
  shape names [] names (sd_id s) [] B ->
  shape names [] names (sd_id s) [] C ->
  shape names [] names (sd_id s) [] D ->
  shape names [] names (sd_id s) [] E ->
  shape names [] names (sd_id s) [] F ->
  cells47 (slot_fuel (lsb_value (map present row))) names g sc ck (sd_id s) rng_ok rng pok pr
    (lsb_value (map present row)) 0 (zlen pre)
    {| o_rng := combine names A; o_phs := combine names B; o_ltm := combine names C; o_hca := combine names D; o_dpl := combine names E; o_c2n := combine names F |}
  = Ok ({| o_rng := combine names (addrow (sd_id s) A (row_vals (rep_rng t s) [] row));
           o_phs := combine names (addrow (sd_id s) B (row_vals (rep_phs t s) [] row));
           o_ltm := combine names (addrow (sd_id s) C (row_vals (rep_ltm t s) [] row));
           o_hca := combine names (addrow (sd_id s) D (row_vals (rep_hca t s) [] row));
           o_dpl := combine names (addrow (sd_id s) E (row_vals (rep_dpl t s) [] row));
           o_c2n := combine names (addrow (sd_id s) F (row_vals (rep_c2n t s) [] row)) |},
        zlen pre + zlen (row_cells row)).
Proof.
  intros H1 H2 SA SB SC SD SE SF.
  pose proof (cells47_ok row [] [] names pre post (slot_fuel (lsb_value (map present row)))
    [] A [] B [] C [] D [] E [] F eq_refl eq_refl H1 H2 (row_fuel row) SA SB SC SD SE SF) as HC.
  exact HC.
Qed.
End Cells47.

Lemma land_ones_invalid w f : 0 < w -> - 2 ^ (w - 1) <= f < 2 ^ (w - 1) ->
  (Z.land f (Z.ones w) =? 2 ^ (w - 1)) = marks_invalid w f.
Proof.
  intros Hw Hf. unfold marks_invalid. rewrite Z.land_ones by lia.
  assert (P : 2 ^ w = 2 * 2 ^ (w - 1)) by (rewrite <- Z.pow_succ_r by lia; f_equal; lia).
  assert (Q : 0 < 2 ^ (w - 1)) by (apply Z.pow_pos_nonneg; lia).
  destruct (Z.eq_dec f (- 2 ^ (w - 1))) as [E|E].
  - replace (f =? - 2 ^ (w - 1)) with true by lia. apply Z.eqb_eq.
    rewrite E, P. symmetry. apply Z.mod_unique_pos with (q := -1); lia.
  - replace (f =? - 2 ^ (w - 1)) with false by lia. apply Z.eqb_neq. intros X.
    destruct (Z_lt_le_dec f 0) as [N|N].
    + assert (Y : f mod 2 ^ w = f + 2 ^ w) by (symmetry; apply Z.mod_unique_pos with (q := -1); lia).
      lia.
    + rewrite Z.mod_small in X by lia. lia.
Qed.

Definition blocked_before (t : msm_type) (before : list (option cell_data)) : bool :=
  match t with MSM3 => existsb (range_invalid t) (row_cells before) | _ => false end.

Lemma blocked_step t before c :
  blocked t before c = blocked_before t before || match t with MSM3 => range_invalid t c | _ => false end.
Proof.
  unfold blocked, blocked_before. destruct t; try reflexivity.
  rewrite existsb_app. cbn [existsb]. now rewrite orb_false_r.
Qed.

Lemma blocked_before_app t before o :
  blocked_before t (before ++ [o]) =
  match o with Some c => blocked t before c | None => blocked_before t before end.
Proof.
  unfold blocked, blocked_before. unfold row_cells at 1. rewrite flat_map_app.
  destruct o; cbn [flat_map app]; [|rewrite app_nil_r]; reflexivity.
Qed.

Lemma lock4_ok l : fits_u 4 l -> unpack_tlock4 l = df402_ms l.
Proof.
  intros [H1 H2]. unfold unpack_tlock4, df402_ms. destruct (l =? 0); [reflexivity|].
  rewrite Z.shiftl_mul_pow2 by lia. rewrite Z.mul_1_l. f_equal. lia.
Qed.

Section Cells13.
Context (names : list string) (ND : NoDup names).
Context (t : msm_type) (s : sat_data) (all : list cell_data) (g : bare_sgn123).
Hypothesis T : In t [MSM1; MSM2; MSM3].
Hypothesis G1 : has_range t = true -> sgn1_rng_fine g = map cd_rng all.
Hypothesis G2 : has_phase t = true -> sgn1_phase_fine g = map cd_phs all.
Hypothesis G3 : has_phase t = true -> sgn1_lock_time g = map cd_lock all.
Hypothesis G4 : has_phase t = true -> sgn1_hc_indc g = map cd_half all.
Hypothesis W1 : has_range t = true -> Forall (fun c => fits_s 15 (cd_rng c)) all.
Hypothesis W2 : has_phase t = true -> Forall (fun c => fits_s 22 (cd_phs c)) all.
Hypothesis W3 : has_phase t = true -> Forall (fun c => fits_u 4 (cd_lock c)) all.

Let rng := f_div (f_of_int (sd_rough s)) (f_of_int 1024).

Lemma cells13_ok row : forall before n1 n2 pre post fuel A1 A2 B1 B2 C1 C2 D1 D2 dE dF,
  names = n1 ++ n2 -> length n1 = length before -> length n2 = length row ->
  all = pre ++ row_cells row ++ post ->
  lsb_value (map present row) < 2 ^ Z.of_nat fuel ->
  shape names n1 n2 (sd_id s) A1 A2 -> shape names n1 n2 (sd_id s) B1 B2 ->
  shape names n1 n2 (sd_id s) C1 C2 -> shape names n1 n2 (sd_id s) D1 D2 ->
  cells13 fuel names g (sd_id s) (has_range t) rng (has_phase t && negb (blocked_before t before))
    (lsb_value (map present row)) (zlen before) (zlen pre)
    {| o_rng := combine names (A1 ++ A2); o_phs := combine names (B1 ++ B2);
       o_ltm := combine names (C1 ++ C2); o_hca := combine names (D1 ++ D2);
       o_dpl := dE; o_c2n := dF |}
  = Ok ({| o_rng := combine names (A1 ++ addrow (sd_id s) A2 (row_vals (rep_rng t s) before row));
           o_phs := combine names (B1 ++ addrow (sd_id s) B2 (row_vals (rep_phs t s) before row));
           o_ltm := combine names (C1 ++ addrow (sd_id s) C2 (row_vals (rep_ltm t s) before row));
           o_hca := combine names (D1 ++ addrow (sd_id s) D2 (row_vals (rep_hca t s) before row));
           o_dpl := dE; o_c2n := dF |},
        zlen pre + zlen (row_cells row)).
Proof.
  induction row as [|o row IH];
    intros before n1 n2 pre post fuel A1 A2 B1 B2 C1 C2 D1 D2 dE dF HN L1 L2 HA HF SA SB SC SD.
  - change (zlen (row_cells [])) with 0. rewrite Z.add_0_r.
    destruct A2, B2, C2, D2; destruct fuel; reflexivity.
  - destruct (lsb_value (map present (o :: row)) =? 0) eqn:Z0.
    + apply Z.eqb_eq in Z0. pose proof (lsb_zero_none _ Z0) as N.
      do 2 rewrite (none_addrow (V := flt) (sd_id s) _ _ N).
      rewrite (none_addrow (V := Z) (sd_id s) _ _ N), (none_addrow (V := bool) (sd_id s) _ _ N).
      rewrite none_row_cells by assumption.
      rewrite Z0. change (zlen (@nil cell_data)) with 0. rewrite Z.add_0_r. destruct fuel; reflexivity.
    + destruct n2 as [|sg n2]; [discriminate|]. cbn [length] in L2.
      destruct A2 as [|a A2]; [destruct SA as (_ & X & _); discriminate|].
      destruct B2 as [|b B2]; [destruct SB as (_ & X & _); discriminate|].
      destruct C2 as [|c C2]; [destruct SC as (_ & X & _); discriminate|].
      destruct D2 as [|d D2]; [destruct SD as (_ & X & _); discriminate|].
      destruct SA as (SA1 & SA2 & SA3); destruct SB as (SB1 & SB2 & SB3);
      destruct SC as (SC1 & SC2 & SC3); destruct SD as (SD1 & SD2 & SD3).
      inversion SA3 as [|? ? FA SA4]; subst. inversion SB3 as [|? ? FB SB4]; subst.
      inversion SC3 as [|? ? FC SC4]; subst. inversion SD3 as [|? ? FD SD4]; subst.
      destruct fuel as [|fuel].
      { pose proof (lsb_value_nonneg (map present (o :: row))).
        change (2 ^ Z.of_nat 0) with 1 in HF. apply Z.eqb_neq in Z0. lia. }
      cbn [cells13]. rewrite Z0.
      rewrite py_index_app by (unfold zlen; congruence). cbn [bind].
      cbn [map]. destruct (lsb_cons (present o) (map present row)) as [X1 X2]. rewrite X1, X2.
      assert (HF' : lsb_value (map present row) < 2 ^ Z.of_nat fuel).
      { cbn [map lsb_value] in HF. rewrite Nat2Z.inj_succ, Z.pow_succ_r in HF by lia.
        destruct (present o); cbn [Z.b2z] in HF; lia. }
      assert (HB : zlen before + 1 = zlen (before ++ [o])) by (rewrite zlen_app; reflexivity).
      rewrite HB.
      assert (AP : forall (W : Type) (Q1 Q2 : list W) q, Q1 ++ q :: Q2 = (Q1 ++ [q]) ++ Q2)
        by (intros; now rewrite <- app_assoc).
      destruct o as [cl|]; cbn [present Z.b2z].
      * change (1 =? 0) with false. cbv iota.
        assert (I : In cl (pre ++ row_cells (Some cl :: row) ++ post))
          by (rewrite in_app_iff; right; cbn; tauto).
        assert (PI : forall get : cell_data -> Z,
          py_index (map get (pre ++ row_cells (Some cl :: row) ++ post)) (zlen pre) = Ok (get cl)).
        { intros get. rewrite map_app. cbn [row_cells flat_map app map].
          apply py_index_app. now rewrite zlen_map. }
        cbn [o_rng o_phs o_ltm o_hca o_dpl o_c2n].
        set (names := n1 ++ sg :: n2) in *.
        assert (EXT : extended t = false)
          by (cbn [In] in T; destruct T as [<-|[<-|[<-|[]]]]; reflexivity).
        assert (RO : rough_ms t s = Some rng)
          by (cbn [In] in T; destruct T as [<-|[<-|[<-|[]]]]; reflexivity).
        assert (HC : has_cnr t = false)
          by (cbn [In] in T; destruct T as [<-|[<-|[<-|[]]]]; reflexivity).
        assert (U1 : (if has_range t then
           f0 <- py_index (sgn1_rng_fine g) (zlen pre) ;;
           if negb (Z.land f0 0x7FFF =? 0x4000)
           then d0 <- obs_put (combine names (A1 ++ a :: A2)) sg (sd_id s)
                  (f_mul (f_add rng (f_mul (f_of_int f0) (sc_rng SCALERS45))) CRNG_1MS) ;;
                Ok (d0, has_phase t && negb (blocked_before t before))
           else Ok (combine names (A1 ++ a :: A2), false)
         else Ok (combine names (A1 ++ a :: A2), has_phase t && negb (blocked_before t before)))
         = Ok (combine names (A1 ++ add1 (sd_id s) a (rep_rng t s before cl) :: A2),
               has_phase t && negb (blocked t before cl))).
        { unfold names.
          pose proof (add1_opt n1 n2 sg A1 A2 a (sd_id s) (rep_rng t s before cl)) as U.
          unfold rep_rng, code_range in *. rewrite RO in *. rewrite blocked_step.
          destruct (has_range t) eqn:HR; cbn [andb] in *.
          - rewrite G1, PI by reflexivity. cbn [bind].
            assert (M : (Z.land (cd_rng cl) 0x7FFF =? 0x4000) = range_invalid t cl).
            { unfold range_invalid. rewrite EXT.
              change 0x7FFF with (Z.ones 15). change 0x4000 with (2 ^ (15 - 1)).
              apply land_ones_invalid; [lia|].
              specialize (W1 eq_refl). rewrite Forall_forall in W1. exact (W1 cl I). }
            rewrite M. destruct (range_invalid t cl) eqn:RI; cbn [negb] in *.
            + f_equal. f_equal.
              cbn [In] in T; destruct T as [<-|[<-|[<-|[]]]]; try reflexivity; try discriminate HR.
              now rewrite orb_true_r.
            + rewrite EXT in U. cbn [add1] in *.
              match type of U with _ -> _ -> _ -> ?l = ?r =>
                match goal with |- bind ?x ?k = ?R => change (bind l k = R) end end.
              rewrite U by (try assumption; congruence). cbn [bind].
              rewrite EXT. destruct t; rewrite ?orb_false_r; reflexivity.
          - cbn [add1]. f_equal. f_equal.
            cbn [In] in T; destruct T as [<-|[<-|[<-|[]]]]; try reflexivity; discriminate HR. }
        put_step U1. clear U1.
        assert (U2 : (if has_phase t && negb (blocked t before cl) then
           f0 <- py_index (sgn1_phase_fine g) (zlen pre) ;;
           if Z.land f0 0x3FFFFF =? 0x200000
           then Ok (combine names (B1 ++ b :: B2), combine names (C1 ++ c :: C2), combine names (D1 ++ d :: D2))
           else
             phs <- obs_put (combine names (B1 ++ b :: B2)) sg (sd_id s)
                  (f_mul (f_add rng (f_mul (f_of_int f0) (sc_phs SCALERS45))) CRNG_1MS) ;;
             l <- py_index (sgn1_lock_time g) (zlen pre) ;;
             ltm <- obs_put (combine names (C1 ++ c :: C2)) sg (sd_id s) (sc_ltm SCALERS45 l) ;;
             hc <- py_index (sgn1_hc_indc g) (zlen pre) ;;
             hca <- obs_put (combine names (D1 ++ d :: D2)) sg (sd_id s) (negb (hc =? 0)) ;;
             Ok (phs, ltm, hca)
         else Ok (combine names (B1 ++ b :: B2), combine names (C1 ++ c :: C2), combine names (D1 ++ d :: D2)))
         = Ok (combine names (B1 ++ add1 (sd_id s) b (rep_phs t s before cl) :: B2),
               combine names (C1 ++ add1 (sd_id s) c (rep_ltm t s before cl) :: C2),
               combine names (D1 ++ add1 (sd_id s) d (rep_hca t s before cl) :: D2))).
        { unfold names.
          pose proof (add1_opt n1 n2 sg B1 B2 b (sd_id s) (rep_phs t s before cl)) as UB.
          pose proof (add1_opt n1 n2 sg C1 C2 c (sd_id s) (rep_ltm t s before cl)) as UC.
          pose proof (add1_opt n1 n2 sg D1 D2 d (sd_id s) (rep_hca t s before cl)) as UD.
          unfold rep_ltm, rep_hca, rep_phs, phase_range in *. rewrite HC, RO in *.
          destruct (blocked t before cl); cbn [negb andb] in *.
          { rewrite andb_false_r. reflexivity. }
          rewrite andb_true_r.
          destruct (has_phase t) eqn:HP; cbn [andb] in *; [|reflexivity].
          rewrite G2, PI by reflexivity. cbn [bind].
          assert (M : (Z.land (cd_phs cl) 0x3FFFFF =? 0x200000) = phase_invalid t cl).
          { unfold phase_invalid. rewrite EXT.
            change 0x3FFFFF with (Z.ones 22). change 0x200000 with (2 ^ (22 - 1)).
            apply land_ones_invalid; [lia|].
            specialize (W2 eq_refl). rewrite Forall_forall in W2. exact (W2 cl I). }
          rewrite M. destruct (phase_invalid t cl); cbn [negb] in *; [reflexivity|].
          rewrite EXT in *. unfold lock_ms in *. rewrite EXT in *.
          match type of UB with _ -> _ -> _ -> ?l = ?r =>
            match goal with |- bind ?x ?k = ?R => change (bind l k = R) end end.
          rewrite UB by (try assumption; congruence). cbn [bind].
          rewrite G3, PI by reflexivity. cbn [bind sc_ltm SCALERS45].
          rewrite lock4_ok by (specialize (W3 eq_refl); rewrite Forall_forall in W3; exact (W3 cl I)).
          rewrite UC by (try assumption; congruence). cbn [bind].
          rewrite G4, PI by reflexivity. cbn [bind].
          rewrite UD by (try assumption; congruence). cbn [bind]. reflexivity. }
        put_step U2. clear U2.
        cbn [row_vals addrow].
        replace (zlen pre + 1) with (zlen (pre ++ [cl])) by (rewrite zlen_app; reflexivity).
        rewrite (AP _ A1 A2), (AP _ A1 (addrow (sd_id s) A2 _)), (AP _ B1 B2),
          (AP _ B1 (addrow (sd_id s) B2 _)), (AP _ C1 C2), (AP _ C1 (addrow (sd_id s) C2 _)),
          (AP _ D1 D2), (AP _ D1 (addrow (sd_id s) D2 _)).
        pose proof (blocked_before_app t before (Some cl)) as BB. cbv iota in BB. rewrite <- BB.
        rewrite (IH (before ++ [Some cl]) (n1 ++ [sg]) n2 (pre ++ [cl]) post fuel).
        -- f_equal. f_equal. rewrite zlen_app. change (zlen [cl]) with 1.
           cbn [row_cells flat_map app]. rewrite zlen_cons. unfold row_cells. lia.
        -- unfold names. now rewrite <- app_assoc.
        -- rewrite !app_length. cbn. lia.
        -- lia.
        -- cbn [row_cells flat_map app]. rewrite <- app_assoc. reflexivity.
        -- exact HF'.
        -- repeat split; [rewrite !app_length; cbn; lia|cbn in SA2; lia|exact SA4].
        -- repeat split; [rewrite !app_length; cbn; lia|cbn in SB2; lia|exact SB4].
        -- repeat split; [rewrite !app_length; cbn; lia|cbn in SC2; lia|exact SC4].
        -- repeat split; [rewrite !app_length; cbn; lia|cbn in SD2; lia|exact SD4].
      * change (0 =? 0) with true. cbv iota. cbn [row_vals addrow add1].
        rewrite (AP _ A1 A2), (AP _ A1 (addrow (sd_id s) A2 _)), (AP _ B1 B2),
          (AP _ B1 (addrow (sd_id s) B2 _)), (AP _ C1 C2), (AP _ C1 (addrow (sd_id s) C2 _)),
          (AP _ D1 D2), (AP _ D1 (addrow (sd_id s) D2 _)).
        pose proof (blocked_before_app t before None) as BB. cbv iota in BB. rewrite <- BB.
        rewrite (IH (before ++ [None]) (n1 ++ [sg]) n2 pre post fuel).
        -- reflexivity.
        -- now rewrite <- app_assoc.
        -- rewrite !app_length. cbn. lia.
        -- lia.
        -- reflexivity.
        -- exact HF'.
        -- repeat split; [rewrite !app_length; cbn; lia|cbn in SA2; lia|exact SA4].
        -- repeat split; [rewrite !app_length; cbn; lia|cbn in SB2; lia|exact SB4].
        -- repeat split; [rewrite !app_length; cbn; lia|cbn in SC2; lia|exact SC4].
        -- repeat split; [rewrite !app_length; cbn; lia|cbn in SD2; lia|exact SD4].
Qed.

Corollary cells13_row row pre post A B C D dE dF :
  length names = length row -> all = pre ++ row_cells row ++ post ->
  shape names [] names (sd_id s) [] A ->
  shape names [] names (sd_id s) [] B ->
  shape names [] names (sd_id s) [] C ->
  shape names [] names (sd_id s) [] D ->
  cells13 (slot_fuel (lsb_value (map present row))) names g (sd_id s) (has_range t) rng (has_phase t)
    (lsb_value (map present row)) 0 (zlen pre)
    {| o_rng := combine names A; o_phs := combine names B; o_ltm := combine names C; o_hca := combine names D; o_dpl := dE; o_c2n := dF |}
  = Ok ({| o_rng := combine names (addrow (sd_id s) A (row_vals (rep_rng t s) [] row));
           o_phs := combine names (addrow (sd_id s) B (row_vals (rep_phs t s) [] row));
           o_ltm := combine names (addrow (sd_id s) C (row_vals (rep_ltm t s) [] row));
           o_hca := combine names (addrow (sd_id s) D (row_vals (rep_hca t s) [] row));
           o_dpl := dE; o_c2n := dF |},
        zlen pre + zlen (row_cells row)).
Proof.
  intros H1 H2 SA SB SC SD.
  pose proof (cells13_ok row [] [] names pre post (slot_fuel (lsb_value (map present row)))
    [] A [] B [] C [] D dE dF eq_refl eq_refl H1 H2 (row_fuel row) SA SB SC SD) as HC.
  replace (has_phase t && negb (blocked_before t [])) with (has_phase t) in HC
    by (destruct t; cbn [blocked_before row_cells flat_map existsb negb]; now rewrite ?andb_true_r).
  exact HC.
Qed.
End Cells13.
