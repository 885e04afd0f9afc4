(** * LogProofs: lemmas for PropertiesLog. *)
From Coq Require Import Permutation.
From Flocq Require Import BinarySingleNaN.
From Verif Require Import PyBase PyDict PyFloat PyVal PyFormat FormatSpec FormatProofs BitsSpec BitsModel MessageSpec FramerModel FramerSpec FramerProofs TablesModel
  MsmModel MsmSpec MsmProofs MsmTheorems MsmScaleSpec MsmScaleProofs MsmScaleTheorems MsmConvert MsmConverse EphModel BaseModel
  DecoderModel DecoderSpec DecoderProofs PropertiesDecoder MargoModel MargoSpec MargoProofs MargoFiles PropertiesMargo
  JsonModel JsonFileSpec JsonFiles JsonDecoded PropertiesJson PrinterModel PrinterSpec PrinterProofs PropertiesPrinter MainModel MainSpec MainProofs
  ControlsModel SessionModel LogModel LogSpec.
Local Open Scope string_scope.
Local Open Scope list_scope.
Local Open Scope Z_scope.

(** ** Dropping the lines gives the functions of the other models *)
Lemma er_also {A B} (e : logged A) (f : A -> logged B) r g : snd e = r -> (forall a, snd (f a) = g a) -> snd (also e f) = bind r g.
Proof. intros <- H. destruct e as [l [a|x]]; [|reflexivity]. cbn. specialize (H a). destruct (f a). exact H. Qed.
Lemma er_if {A} (b : bool) (x y : logged A) r q : snd x = r -> snd y = q -> snd (if b then x else y) = if b then r else q.
Proof. now destruct b. Qed.
Lemma er_note {A} l t (k : logged A) r : snd k = r -> snd (also (say l t) (fun _ => k)) = r.
Proof. intros <-. cbn. now destruct k. Qed.
Lemma er_flat {A B C} (x : res A) (f : A -> res B) (k : B -> logged C) q :
  (forall a, snd (also (quiet (f a)) k) = q a) -> snd (also (quiet (bind x f)) k) = bind x q.
Proof. intros H. destruct x as [a|e]; [apply H|reflexivity]. Qed.
Lemma er_each {A B} (l : list A) (f : B -> A -> logged B) g : (forall b a, snd (f b a) = g b a) ->
  forall b, snd (each l b f) = for_each l b g.
Proof. intros H. induction l as [|x l IH]; intros b; cbn [each for_each]; [reflexivity|]. apply er_also; [apply H|exact IH]. Qed.
Ltac er := repeat first
  [ reflexivity
  | assumption
  | match goal with |- snd (also (quiet (bind _ _)) _) = bind _ _ => apply er_flat; intros ? end
  | match goal with |- snd (also (no_fine _ _ _ _) (fun _ => _)) = _ => apply er_note end
  | match goal with |- snd (also (no_coarse _ _ _ _) (fun _ => _)) = _ => apply er_note end
  | match goal with |- snd (also (quiet (Ok (_, _, _))) ?k) = ?r =>
      let K := fresh in set (K := k); cbn [also quiet app]; unfold K; clear K; cbv iota;
      match goal with |- snd (let '(l', r0) := ?c in _) = _ => transitivity (snd c); [destruct c; reflexivity|] end end
  | apply er_if | (apply er_also; [|intros ?]) ].

Lemma erase_cells47 gnss sgn_map g sc ck sat rok rng pok pr : forall fuel slots i k o,
  snd (cells47_log gnss fuel sgn_map g sc ck sat rok rng pok pr slots i k o) = cells47 fuel sgn_map g sc ck sat rok rng pok pr slots i k o.
Proof.
  induction fuel as [|fuel IH]; intros slots i k o; cbn [cells47_log cells47]; destruct (slots =? 0); try reflexivity.
  cbv zeta. er; apply IH.
Qed.
Lemma erase_cells13 gnss sgn_map g sat rok rng : forall fuel pok slots i k o,
  snd (cells13_log gnss fuel sgn_map g sat rok rng pok slots i k o) = cells13 fuel sgn_map g sat rok rng pok slots i k o.
Proof.
  induction fuel as [|fuel IH]; intros pok slots i k o; cbn [cells13_log cells13]; destruct (slots =? 0); try reflexivity.
  cbv zeta. er; try apply IH.
  - destruct a0 as [x y]. er. destruct a0 as [[u v] w]. apply IH.
Qed.
Lemma erase_obs47 a s g sm sats slots : snd (convert_obs47_log a s g sm sats slots) = convert_obs47 a s g sm sats slots.
Proof.
  unfold convert_obs47_log, convert_obs47. destruct (if is_msm7 a || is_msm6 a then _ else _) as [sc ck]. cbv zeta. apply er_also.
  - apply er_each. intros [[o i] k] sl. er. destruct a3 as [x y]. er; [apply erase_cells47|]. destruct a3 as [x' y']. reflexivity.
  - intros [[o i] k]. reflexivity.
Qed.
Lemma erase_obs13 a s g sm sats slots : snd (convert_obs13_log a s g sm sats slots) = convert_obs13 a s g sm sats slots.
Proof.
  unfold convert_obs13_log, convert_obs13. cbv zeta. apply er_also.
  - apply er_each. intros [[o i] k] sl. er; [apply erase_cells13|]. destruct a2 as [x' y']. reflexivity.
  - intros [[o i] k]. reflexivity.
Qed.
Lemma erase_convert src : snd (convert_log src) = convert src.
Proof.
  unfold convert_log, convert. destruct src as [src|]; [|reflexivity]. cbv zeta. er.
  destruct src; [apply erase_obs47|apply erase_obs13].
Qed.

(** ** Lines of a conversion *)
Lemma al_also {A B} (P : line -> Prop) (e : logged A) (f : A -> logged B) :
  Forall P (fst e) -> (forall a, Forall P (fst (f a))) -> Forall P (fst (also e f)).
Proof.
  intros He Hf. destruct e as [l [a|x]]; cbn; [|exact He]. specialize (Hf a). destruct (f a) as [l' r]. cbn in *. now apply Forall_app.
Qed.
Lemma al_each {A B} (P : line -> Prop) (l : list A) (f : B -> A -> logged B) : (forall b a, Forall P (fst (f b a))) ->
  forall b, Forall P (fst (each l b f)).
Proof. intros H. induction l as [|x l IH]; intros b; cbn [each]; [constructor|]. now apply al_also. Qed.
Lemma ustr_app a b : ustr (a ++ b)%string = ustr a ++ ustr b.
Proof. induction a as [|c a IH]; [reflexivity|]. cbn. now f_equal. Qed.
Lemma al_coarse w g s k : Forall remark (fst (no_coarse w g s k)).
Proof.
  constructor; [|constructor]. left. split; [reflexivity|]. left. cbn [snd]. rewrite (ustr_app "No coarse "), <- app_assoc. eexists; reflexivity.
Qed.
Lemma al_fine w g s c : Forall remark (fst (no_fine w g s c)).
Proof.
  constructor; [|constructor]. right. split; [reflexivity|]. cbn [snd]. rewrite (ustr_app "No fine "), <- app_assoc. eexists; reflexivity.
Qed.
Ltac al := repeat first
  [ apply al_coarse | apply al_fine
  | match goal with |- Forall _ (fst (quiet _)) => constructor end
  | match goal with |- Forall _ (fst (if ?b then _ else _)) => destruct b end
  | (apply al_also; [|intros ?]) ].

Lemma remarks_cells47 gnss sm g sc ck sat rok rng pok pr : forall fuel slots i k o,
  Forall remark (fst (cells47_log gnss fuel sm g sc ck sat rok rng pok pr slots i k o)).
Proof.
  induction fuel as [|fuel IH]; intros slots i k o; cbn [cells47_log]; destruct (slots =? 0); try (constructor; fail).
  cbv zeta. al; try apply IH. destruct a3 as [[u v] w]. apply IH.
Qed.
Lemma remarks_cells13 gnss sm g sat rok rng : forall fuel pok slots i k o,
  Forall remark (fst (cells13_log gnss fuel sm g sat rok rng pok slots i k o)).
Proof.
  induction fuel as [|fuel IH]; intros pok slots i k o; cbn [cells13_log]; destruct (slots =? 0); try (constructor; fail).
  cbv zeta. al; try apply IH. destruct a0 as [x y]. al. destruct a0 as [[u v] w]. apply IH.
Qed.
Lemma remarks_convert src : Forall remark (fst (convert_log src)).
Proof.
  unfold convert_log. destruct src as [src|]; [|constructor]. cbv zeta. al. destruct src as [a1 h s g|a1 h s g].
  - unfold convert_obs47_log. destruct (if is_msm7 a1 || is_msm6 a1 then _ else _) as [sc ck]. cbv zeta. apply al_also.
    + apply al_each. intros [[o i] k] sl. al. destruct a4 as [x y]. al; [apply remarks_cells47|]. destruct a4. constructor.
    + intros [[o i] k]. constructor.
  - unfold convert_obs13_log. cbv zeta. apply al_also.
    + apply al_each. intros [[o i] k] sl. al; [apply remarks_cells13|]. destruct a3. constructor.
    + intros [[o i] k]. constructor.
Qed.

(** A logged computation that succeeds. *)
Lemma also_ok {A B} (e : logged A) (f : A -> logged B) l b : also e f = (l, Ok b) ->
  exists l1 a l2, e = (l1, Ok a) /\ f a = (l2, Ok b) /\ l = l1 ++ l2.
Proof.
  destruct e as [l1 [a|x]]; cbn; intros H; [|discriminate]. destruct (f a) as [l2 r] eqn:E. exists l1, a, l2.
  assert (r = Ok b /\ l = l1 ++ l2) as (-> & ->) by (split; congruence). auto.
Qed.
Lemma quiet_ok {A} (r : res A) l a : quiet r = (l, Ok a) -> l = [] /\ r = Ok a.
Proof. unfold quiet. intros H. split; congruence. Qed.

Lemma index_at {A} (all : list cell_data) (f : cell_data -> A) pre c post : all = pre ++ c :: post -> py_index (map f all) (zlen pre) = Ok (f c).
Proof. intros ->. rewrite map_app. cbn [map]. apply py_index_app. now rewrite zlen_map. Qed.

Section Lines47.
Context (names : list string) (g : gnss) (t : msm_type) (s : sat_data) (all : list cell_data) (bg : bare_sgn4567)
        (sc : scalers) (ck : checkers) (rok : bool) (rng : flt) (pok : bool) (pr : flt).
Hypothesis T : has_cnr t = true.
Hypothesis G1 : sgn_rng_fine bg = map cd_rng all.
Hypothesis G2 : sgn_phase_fine bg = map cd_phs all.
Hypothesis G6 : pok = true -> sgn_phase_rate_fine bg = map cd_rate all.
Hypothesis V1 : forall c, In c all -> ck_rng ck (cd_rng c) = negb (range_invalid t c).
Hypothesis V2 : forall c, In c all -> ck_phs ck (cd_phs c) = negb (phase_invalid t c).
Hypothesis V3 : forall c, In c all -> pok = true -> ck_dpl ck (cd_rate c) = negb (marks_invalid 15 (cd_rate c)).
Hypothesis R1 : match rough_ms t s with Some _ => rok = true | None => rok = false end.
Hypothesis R2 : pok = has_rate t && negb (marks_invalid 14 (sd_rate s)).

Lemma none_remarks row : Forall (fun o => o = None) row -> forall before codes, cells_remarks g t s before row codes = [].
Proof. induction 1 as [|o r -> H IH]; intros before [|c codes]; cbn [cells_remarks]; try reflexivity. apply IH. Qed.


Lemma lines47 row : forall before n1 n2 pre post fuel o l r,
  names = n1 ++ n2 -> length n1 = length before -> length n2 = length row -> all = pre ++ row_cells row ++ post ->
  cells47_log (gnss_letter g) fuel names bg sc ck (sd_id s) rok rng pok pr (lsb_value (map present row)) (zlen before) (zlen pre) o = (l, Ok r) ->
  l = cells_remarks g t s before row n2.
Proof.
  induction row as [|oc row IH]; intros before n1 n2 pre post fuel o l r HN L1 L2 HA H.
  - assert (l = []) as -> by (destruct fuel; cbn in H; unfold quiet in H; congruence). destruct n2; reflexivity.
  - destruct (lsb_value (map present (oc :: row)) =? 0) eqn:Z0.
    + assert (l = []) as -> by (destruct fuel; cbn [cells47_log] in H; rewrite Z0 in H; unfold quiet in H; congruence).
      apply Z.eqb_eq, lsb_zero_none in Z0. symmetry. now apply none_remarks.
    + destruct n2 as [|code n2]; [discriminate|]. destruct fuel as [|fuel]; cbn [cells47_log] in H; rewrite Z0 in H; [unfold quiet in H; congruence|].
      assert (I : py_index names (zlen before) = Ok code).
      { rewrite HN. apply py_index_app. unfold zlen. now rewrite L1. }
      rewrite I in H. clear I. apply also_ok in H. destruct H as (l0 & sgn & l1 & Q & H & ->). apply quiet_ok in Q. destruct Q as (-> & Q).
      assert (sgn = code) as -> by congruence. clear Q. cbv zeta in H. cbn [map] in H. rewrite (proj1 (lsb_cons _ _)), (proj2 (lsb_cons _ _)) in H.
      assert (ZB : zlen before + 1 = zlen (before ++ [oc])) by (rewrite zlen_app; reflexivity). rewrite ZB in H.
      assert (LB : length (n1 ++ [code]) = length (before ++ [oc])) by (rewrite !app_length; cbn; lia).
      assert (NN : names = (n1 ++ [code]) ++ n2) by (rewrite <- app_assoc; exact HN).
      destruct oc as [c|]; cbn [present Z.b2z] in H; cbn [Z.eqb] in H; cbn [app cells_remarks].
      2:{ exact (IH (before ++ [None]) (n1 ++ [code]) n2 pre post fuel o l1 r NN LB ltac:(cbn in L2; lia) HA H). }
      cbn [row_cells flat_map app] in HA. fold (row_cells row) in HA.
      assert (Ic : In c all) by (rewrite HA; apply in_or_app; right; now left).
      apply also_ok in H. destruct H as (la & d1 & lb & E1 & H & ->).
      apply also_ok in H. destruct H as (lc & d2 & ld & E2 & H & ->).
      apply also_ok in H. destruct H as (le & d3 & lf & E3 & H & ->).
      apply also_ok in H. destruct H as (lg & [[d4 d5] d6] & lh & E4 & H & ->). apply quiet_ok in E4. destruct E4 as (-> & _). cbn [app].
      assert (ZP : zlen pre + 1 = zlen (pre ++ [c])) by (rewrite zlen_app; reflexivity). rewrite ZP in H.
      apply IH with (n1 := n1 ++ [code]) (n2 := n2) (post := post) in H; [|exact NN|exact LB|cbn in L2; lia|rewrite <- app_assoc; exact HA].
      subst lh. clear ZB LB NN ZP.
      assert (X1 : la = if rok then if range_invalid t c then [fine "range" g (sd_id s) code] else [] else []).
      { destruct rok; [|apply quiet_ok in E1; apply E1]. rewrite G1, (index_at all cd_rng _ _ _ HA) in E1.
        apply also_ok in E1. destruct E1 as (m0 & f & m1 & Q & E1 & ->). apply quiet_ok in Q. destruct Q as (-> & Q).
        assert (f = cd_rng c) as -> by congruence. rewrite (V1 c Ic) in E1. destruct (range_invalid t c); cbn [negb] in E1; [|apply quiet_ok in E1; apply E1].
        apply (f_equal fst) in E1. symmetry. exact E1. }
      assert (X2 : lc = if rok then if phase_invalid t c then [fine "phase" g (sd_id s) code] else [] else []).
      { destruct rok; [|apply quiet_ok in E2; apply E2]. rewrite G2, (index_at all cd_phs _ _ _ HA) in E2.
        apply also_ok in E2. destruct E2 as (m0 & f & m1 & Q & E2 & ->). apply quiet_ok in Q. destruct Q as (-> & Q).
        assert (f = cd_phs c) as -> by congruence. rewrite (V2 c Ic) in E2. destruct (phase_invalid t c); cbn [negb] in E2; [|apply quiet_ok in E2; apply E2].
        apply (f_equal fst) in E2. symmetry. exact E2. }
      assert (X3 : le = if pok then if marks_invalid 15 (cd_rate c) then [fine "doppler" g (sd_id s) code] else [] else []).
      { destruct pok eqn:P; [|apply quiet_ok in E3; apply E3]. rewrite (G6 eq_refl), (index_at all cd_rate _ _ _ HA) in E3.
        apply also_ok in E3. destruct E3 as (m0 & f & m1 & Q & E3 & ->). apply quiet_ok in Q. destruct Q as (-> & Q).
        assert (f = cd_rate c) as -> by congruence. rewrite (V3 c Ic eq_refl) in E3. destruct (marks_invalid 15 (cd_rate c)); cbn [negb] in E3; [|apply quiet_ok in E3; apply E3].
        apply (f_equal fst) in E3. symmetry. exact E3. }
      rewrite X1, X2, X3. clear X1 X2 X3 E1 E2 E3. unfold cell_remarks.
      assert (RP : has_range t = true /\ has_phase t = true /\ blocked t before c = false) by (destruct t; try discriminate T; repeat split; reflexivity).
      destruct RP as (-> & -> & ->). cbn [andb negb]. rewrite !app_assoc. f_equal. f_equal.
      * destruct (rough_ms t s); rewrite R1; reflexivity.
      * rewrite R2. destruct (has_rate t && negb (marks_invalid 14 (sd_rate s))); reflexivity.
Qed.
End Lines47.

Section Lines13.
Context (names : list string) (g : gnss) (t : msm_type) (s : sat_data) (all : list cell_data) (bg : bare_sgn123) (rng : flt).
Hypothesis T : has_cnr t = false.
Hypothesis G1 : has_range t = true -> sgn1_rng_fine bg = map cd_rng all.
Hypothesis G2 : has_phase t = true -> sgn1_phase_fine bg = map cd_phs all.
Hypothesis V1 : has_range t = true -> Forall (fun c => fits_s 15 (cd_rng c)) all.
Hypothesis V2 : has_phase t = true -> Forall (fun c => fits_s 22 (cd_phs c)) all.

Definition spoiled (before : list (option cell_data)) : bool :=
  match t with MSM3 => existsb (range_invalid t) (row_cells before) | _ => false end.

Lemma lines13 row : forall before n1 n2 pre post fuel o l r,
  names = n1 ++ n2 -> length n1 = length before -> length n2 = length row -> all = pre ++ row_cells row ++ post ->
  cells13_log (gnss_letter g) fuel names bg (sd_id s) (has_range t) rng (has_phase t && negb (spoiled before))
    (lsb_value (map present row)) (zlen before) (zlen pre) o = (l, Ok r) ->
  l = cells_remarks g t s before row n2.
Proof.
  induction row as [|oc row IH]; intros before n1 n2 pre post fuel o l r HN L1 L2 HA H.
  - assert (l = []) as -> by (destruct fuel; cbn in H; unfold quiet in H; congruence). destruct n2; reflexivity.
  - destruct (lsb_value (map present (oc :: row)) =? 0) eqn:Z0.
    + assert (l = []) as -> by (destruct fuel; cbn [cells13_log] in H; rewrite Z0 in H; unfold quiet in H; congruence).
      apply Z.eqb_eq, lsb_zero_none in Z0. symmetry. now apply none_remarks.
    + destruct n2 as [|code n2]; [discriminate|]. destruct fuel as [|fuel]; cbn [cells13_log] in H; rewrite Z0 in H; [unfold quiet in H; congruence|].
      assert (I : py_index names (zlen before) = Ok code).
      { rewrite HN. apply py_index_app. unfold zlen. now rewrite L1. }
      rewrite I in H. clear I. apply also_ok in H. destruct H as (l0 & sgn & l1 & Q & H & ->). apply quiet_ok in Q. destruct Q as (-> & Q).
      assert (sgn = code) as -> by congruence. clear Q. cbv zeta in H. cbn [map] in H. rewrite (proj1 (lsb_cons _ _)), (proj2 (lsb_cons _ _)) in H.
      assert (ZB : zlen before + 1 = zlen (before ++ [oc])) by (rewrite zlen_app; reflexivity). rewrite ZB in H.
      assert (LB : length (n1 ++ [code]) = length (before ++ [oc])) by (rewrite !app_length; cbn; lia).
      assert (NN : names = (n1 ++ [code]) ++ n2) by (rewrite <- app_assoc; exact HN).
      assert (RC : row_cells (before ++ [oc]) = row_cells before ++ match oc with Some c => [c] | None => [] end).
      { unfold row_cells. rewrite flat_map_app. cbn [flat_map]. now rewrite app_nil_r. }
      destruct oc as [c|]; cbn [present Z.b2z] in H; cbn [Z.eqb] in H; cbn [app cells_remarks].
      2:{ assert (SP : spoiled before = spoiled (before ++ [None])) by (unfold spoiled; rewrite RC, app_nil_r; reflexivity). rewrite SP in H.
          exact (IH (before ++ [None]) (n1 ++ [code]) n2 pre post fuel o l1 r NN LB ltac:(cbn in L2; lia) HA H). }
      cbn [row_cells flat_map app] in HA. fold (row_cells row) in HA.
      assert (Ic : In c all) by (rewrite HA; apply in_or_app; right; now left).
      apply also_ok in H. destruct H as (la & [d1 pok] & lb & E1 & H & ->).
      apply also_ok in H. destruct H as (lc & [[d2 d3] d4] & ld & E2 & H & ->).
      assert (X1 : la = (if has_range t && range_invalid t c then [fine "range" g (sd_id s) code] else []) /\
                   pok = has_phase t && negb (spoiled before) && negb (has_range t && range_invalid t c)).
      { destruct (has_range t) eqn:HR; cbn [andb negb] in *.
        - rewrite (G1 eq_refl), (index_at all cd_rng _ _ _ HA) in E1.
          apply also_ok in E1. destruct E1 as (m0 & f & m1 & Q & E1 & ->). apply quiet_ok in Q. destruct Q as (-> & Q).
          assert (f = cd_rng c) as -> by congruence.
          assert (CK : negb (Z.land (cd_rng c) 32767 =? 16384) = negb (range_invalid t c)).
          { unfold range_invalid. assert (extended t = false) as -> by (destruct t; try discriminate T; reflexivity).
            apply (ck_invalid 15); try reflexivity. specialize (V1 eq_refl). rewrite Forall_forall in V1. exact (V1 c Ic). }
          rewrite CK in E1. destruct (range_invalid t c); cbn [negb] in E1 |- *.
          + split; [apply (f_equal fst) in E1; symmetry; exact E1|]. rewrite andb_false_r.
            apply (f_equal (fun x => match snd x with Ok y => snd y | Err _ => true end)) in E1. symmetry. exact E1.
          + apply quiet_ok in E1. destruct E1 as (-> & E1). split; [reflexivity|]. rewrite andb_true_r.
            destruct (obs_put _ _ _ _); cbn [bind] in E1; congruence.
        - apply quiet_ok in E1. destruct E1 as (-> & E1). split; [reflexivity|]. rewrite andb_true_r. congruence. }
      destruct X1 as (-> & ->). clear E1.
      set (ph := has_phase t && negb (spoiled before) && negb (has_range t && range_invalid t c)) in *.
      assert (PB : ph = has_phase t && negb (blocked t before c) && (has_phase t && negb (spoiled (before ++ [Some c])) || negb (has_range t))).
      { unfold ph, blocked, spoiled. rewrite RC. destruct t; try discriminate T; cbn [has_phase has_range andb negb orb]; try reflexivity.
        rewrite existsb_app. cbn [existsb]. rewrite orb_false_r, negb_orb, orb_false_r, andb_diag. reflexivity. }
      assert (PS : ph = has_phase t && negb (spoiled (before ++ [Some c]))).
      { unfold ph, spoiled. rewrite RC. destruct t; try discriminate T; cbn [has_phase has_range andb negb]; try reflexivity.
        rewrite existsb_app. cbn [existsb]. now rewrite orb_false_r, negb_orb. }
      assert (PB' : ph = has_phase t && negb (blocked t before c)).
      { unfold ph, blocked, spoiled. destruct t; try discriminate T; cbn [has_phase has_range andb negb]; try reflexivity.
        rewrite existsb_app. cbn [existsb]. now rewrite orb_false_r, negb_orb. }
      clear PB. clearbody ph.
      assert (X2 : lc = if ph && phase_invalid t c then [fine "phase" g (sd_id s) code] else []).
      { destruct ph; cbn [andb]; [|apply quiet_ok in E2; apply E2].
        assert (HP : has_phase t = true) by (destruct (has_phase t); [reflexivity|discriminate PS]).
        rewrite (G2 HP), (index_at all cd_phs _ _ _ HA) in E2.
        apply also_ok in E2. destruct E2 as (m0 & f & m1 & Q & E2 & ->). apply quiet_ok in Q. destruct Q as (-> & Q).
        assert (f = cd_phs c) as -> by congruence.
        assert (CK : negb (Z.land (cd_phs c) 4194303 =? 2097152) = negb (phase_invalid t c)).
        { unfold phase_invalid. assert (extended t = false) as -> by (destruct t; try discriminate T; reflexivity).
          apply (ck_invalid 22); try reflexivity. specialize (V2 HP). rewrite Forall_forall in V2. exact (V2 c Ic). }
        destruct (Z.land (cd_phs c) 4194303 =? 2097152), (phase_invalid t c); try discriminate CK.
        - apply (f_equal fst) in E2. symmetry. exact E2.
        - apply quiet_ok in E2. apply E2. }
      subst lc. clear E2.
      assert (ZP : zlen pre + 1 = zlen (pre ++ [c])) by (rewrite zlen_app; reflexivity). rewrite ZP in H. rewrite PS in H.
      apply IH with (n1 := n1 ++ [code]) (n2 := n2) (post := post) in H; [|exact NN|exact LB|cbn in L2; lia|rewrite <- app_assoc; exact HA].
      subst ld. unfold cell_remarks. rewrite <- PB'.
      assert (RM : exists x, rough_ms t s = Some x) by (destruct t; try discriminate T; eexists; reflexivity). destruct RM as (x & ->).
      assert (HRt : has_rate t = false) by (destruct t; try discriminate T; reflexivity). rewrite HRt. cbn [andb]. rewrite app_nil_r, !app_assoc. reflexivity.
Qed.
End Lines13.

(** The number of cells seen. *)
Lemma bind_ok {A B} (r : res A) (f : A -> res B) b : bind r f = Ok b -> exists a, r = Ok a /\ f a = Ok b.
Proof. destruct r as [a|e]; cbn; intros H; [eauto|discriminate]. Qed.
Lemma zlen_row_cons oc row : zlen (row_cells (oc :: row)) = Z.b2z (present oc) + zlen (row_cells row).
Proof. unfold row_cells. cbn [flat_map]. fold (row_cells row). rewrite zlen_app. now destruct oc. Qed.
Lemma count47 sm bg sc ck sat rok rng pok pr row : forall fuel i k o o' k',
  cells47 fuel sm bg sc ck sat rok rng pok pr (lsb_value (map present row)) i k o = Ok (o', k') -> k' = k + zlen (row_cells row).
Proof.
  induction row as [|oc row IH]; intros fuel i k o o' k' H.
  - assert (k' = k) as -> by (destruct fuel; cbn in H; congruence). change (zlen (row_cells [])) with 0. lia.
  - destruct (lsb_value (map present (oc :: row)) =? 0) eqn:Z0.
    + assert (k' = k) as -> by (destruct fuel; cbn [cells47] in H; rewrite Z0 in H; congruence).
      apply Z.eqb_eq, lsb_zero_none in Z0. rewrite none_row_cells by exact Z0. change (zlen (@nil cell_data)) with 0. lia.
    + destruct fuel as [|fuel]; cbn [cells47] in H; rewrite Z0 in H; [discriminate|]. apply bind_ok in H. destruct H as (sgn & _ & H).
      cbv zeta in H. cbn [map] in H. rewrite (proj1 (lsb_cons _ _)), (proj2 (lsb_cons _ _)) in H. rewrite zlen_row_cons.
      destruct oc as [c|]; cbn [present Z.b2z] in *; cbn [Z.eqb] in H.
      2:{ apply IH in H. lia. }
      do 9 (apply bind_ok in H; destruct H as (? & _ & H)). apply IH in H. lia.
Qed.
Lemma count13 sm bg sat rok rng row : forall fuel pok i k o o' k',
  cells13 fuel sm bg sat rok rng pok (lsb_value (map present row)) i k o = Ok (o', k') -> k' = k + zlen (row_cells row).
Proof.
  induction row as [|oc row IH]; intros fuel pok i k o o' k' H.
  - assert (k' = k) as -> by (destruct fuel; cbn in H; congruence). change (zlen (row_cells [])) with 0. lia.
  - destruct (lsb_value (map present (oc :: row)) =? 0) eqn:Z0.
    + assert (k' = k) as -> by (destruct fuel; cbn [cells13] in H; rewrite Z0 in H; congruence).
      apply Z.eqb_eq, lsb_zero_none in Z0. rewrite none_row_cells by exact Z0. change (zlen (@nil cell_data)) with 0. lia.
    + destruct fuel as [|fuel]; cbn [cells13] in H; rewrite Z0 in H; [discriminate|]. apply bind_ok in H. destruct H as (sgn & _ & H).
      cbv zeta in H. cbn [map] in H. rewrite (proj1 (lsb_cons _ _)), (proj2 (lsb_cons _ _)) in H. rewrite zlen_row_cons.
      destruct oc as [c|]; cbn [present Z.b2z] in *; cbn [Z.eqb] in H.
      2:{ apply IH in H. lia. }
      apply bind_ok in H. destruct H as ([d1 p1] & _ & H). apply bind_ok in H. destruct H as ([[d2 d3] d4] & _ & H). apply IH in H. lia.
Qed.

(** The lines of the loops over the satellites. *)
Section Rows.
Context (m : msm) (names : list string).
Hypothesis OK : msm_ok m.
Hypothesis LN : length names = length (m_sigs m).
Notation t := (m_type m).
Notation g := (m_gnss m).
Notation cells_of rs := (flat_map (fun r : sat_data * list (option cell_data) => row_cells (snd r)) rs).

Lemma rows_app g' t' codes rs0 : forall k rs1, rows_remarks g' t' codes k (rs0 ++ rs1) =
  rows_remarks g' t' codes k rs0 ++ rows_remarks g' t' codes (k + zlen (cells_of rs0)) rs1.
Proof.
  induction rs0 as [|[s row] rs0 IH]; intros k rs1; cbn [app rows_remarks flat_map snd].
  - change (zlen (@nil cell_data)) with 0. now rewrite Z.add_0_r.
  - rewrite IH, app_assoc, zlen_app, Z.add_assoc. reflexivity.
Qed.

Section Rows47.
Hypothesis T : has_cnr t = true.
Context (bs : bare_sat4567) (bg : bare_sgn4567) (a : attributes).
Hypothesis HA : is_msm7 a || is_msm5 a = has_rate t.
Hypothesis GA : a_gnss a = gnss_letter g.
Hypothesis B1 : sat_rng_ms bs = map sd_ms (m_sats m).
Hypothesis B3 : has_rate t = true -> sat_phase_rate_rough bs = map sd_rate (m_sats m).
Hypothesis G1 : sgn_rng_fine bg = map cd_rng (m_cells m).
Hypothesis G2 : sgn_phase_fine bg = map cd_phs (m_cells m).
Hypothesis G6 : has_rate t = true -> sgn_phase_rate_fine bg = map cd_rate (m_cells m).

Lemma rows47 rs1 : forall rs0 o l r, m_rows m = rs0 ++ rs1 ->
  each (map slots_of rs1) (o, zlen rs0, zlen (cells_of rs0))
    (fun '(o, sat_idx, sgn_idx) slots =>
       sat <~ quiet (py_index (map sd_id (m_sats m)) sat_idx) ;;
       ms <~ quiet (py_index (sat_rng_ms bs) sat_idx) ;;
       let rng_ok := negb (ms =? 255) in
       rng <~ (if rng_ok then
                 quiet (rough <- py_index (sat_rng_rough bs) sat_idx ;;
                        Ok (f_div (f_of_int (Z.shiftl ms 10 + rough)) (f_of_int 1024)))
               else _ <~ no_coarse "range" (a_gnss a) sat sgn_idx ;; quiet (Ok (f_of_int 0))) ;;
       '(phase_rate_ok, phase_rate) <~
         (if is_msm7 a || is_msm5 a then
            r <~ quiet (py_index (sat_phase_rate_rough bs) sat_idx) ;;
            if negb (Z.land r 0x3FFF =? 0x2000) then quiet (Ok (true, f_of_int r))
            else _ <~ no_coarse "doppler" (a_gnss a) sat sgn_idx ;; quiet (Ok (false, f_of_int 0))
          else quiet (Ok (false, f_of_int 0))) ;;
       '(o, sgn_idx) <~ cells47_log (a_gnss a) (slot_fuel slots) names bg (the_scalers t) (the_checkers t) sat rng_ok rng
                          phase_rate_ok phase_rate slots 0 sgn_idx o ;;
       quiet (Ok (o, sat_idx + 1, sgn_idx))) = (l, Ok r) ->
  l = rows_remarks g t names (zlen (cells_of rs0)) rs1.
Proof.
  induction rs1 as [|[s row] rs1 IH]; intros rs0 o l r E H; cbn [map each] in H.
  { apply quiet_ok in H. apply H. }
  destruct (row_facts m names OK LN _ _ _ _ E) as (LR & FR & MC & FS). cbn beta in MC.
  apply also_ok in H. destruct H as (l1 & [[o1 i1] k1] & l2 & S & H & ->).
  rewrite (index_map m sd_id _ _ _ _ E) in S. apply also_ok in S. destruct S as (z0 & sat & m1 & Q & S & ->).
  apply quiet_ok in Q. destruct Q as (-> & Q). assert (sat = sd_id s) as -> by congruence. clear Q.
  rewrite B1, (index_map m sd_ms _ _ _ _ E) in S. apply also_ok in S. destruct S as (z1 & ms & m2 & Q & S & ->).
  apply quiet_ok in Q. destruct Q as (-> & Q). assert (ms = sd_ms s) as -> by congruence. clear Q. cbv zeta in S.
  apply also_ok in S. destruct S as (m3 & rng & m4 & Q & S & ->).
  assert (RM : match rough_ms t s with Some _ => negb (sd_ms s =? 255) = true | None => negb (sd_ms s =? 255) = false end).
  { unfold rough_ms. destruct (m_type m); try discriminate T; destruct (sd_ms s =? 255); reflexivity. }
  assert (X1 : m3 = match rough_ms t s with None => [coarse "range" g (sd_id s) (zlen (cells_of rs0))] | Some _ => [] end).
  { destruct (rough_ms t s); rewrite RM in Q; [apply quiet_ok in Q; apply Q|]. rewrite GA in Q. apply (f_equal fst) in Q. symmetry. exact Q. }
  subst m3. clear Q. rewrite HA in S. apply also_ok in S. destruct S as (m5 & [pok pr] & m6 & Q & S & ->).
  assert (X2 : m5 = (if has_rate t && marks_invalid 14 (sd_rate s) then [coarse "doppler" g (sd_id s) (zlen (cells_of rs0))] else []) /\
     pok = has_rate t && negb (marks_invalid 14 (sd_rate s))).
  { destruct (has_rate t) eqn:HR; cbn [andb]; [|apply quiet_ok in Q; destruct Q as (-> & Q); split; [reflexivity|congruence]].
    rewrite (B3 eq_refl), (index_map m sd_rate _ _ _ _ E) in Q. apply also_ok in Q. destruct Q as (z2 & rr & m7 & Q1 & Q & ->).
    apply quiet_ok in Q1. destruct Q1 as (-> & Q1). assert (rr = sd_rate s) as -> by congruence. clear Q1.
    rewrite (ck_invalid 14) in Q; [|lia|reflexivity|reflexivity|
      apply (FS (14%nat, Signed, sd_rate)); destruct (m_type m); try discriminate HR; cbn; tauto].
    change (Z.of_nat 14) with 14 in Q. destruct (marks_invalid 14 (sd_rate s)); cbn [negb] in Q |- *.
    - rewrite GA in Q. split; [apply (f_equal fst) in Q; symmetry; exact Q|].
      apply (f_equal (fun x => match snd x with Ok y => fst y | Err _ => true end)) in Q. symmetry. exact Q.
    - apply quiet_ok in Q. destruct Q as (-> & Q). split; [reflexivity|]. congruence. }
  destruct X2 as (-> & X2). clear Q. apply also_ok in S. destruct S as (m8 & [o2 k2] & m9 & Q & S & ->).
  apply quiet_ok in S. destruct S as (-> & S). assert (o2 = o1 /\ i1 = zlen rs0 + 1 /\ k2 = k1) as (-> & -> & ->) by (repeat split; congruence). clear S.
  unfold slots_of in Q. cbn [snd] in Q.
  pose proof (f_equal snd Q) as C. rewrite erase_cells47 in C. cbn [snd] in C. apply count47 in C. subst k1.
  rewrite GA in Q.
  assert (HCC : forall c, In c (cell_columns t) -> Forall (fits c) (m_cells m)) by (destruct OK as (_ & _ & _ & _ & _ & _ & X); exact X).
  apply (lines47 names g t s (m_cells m) bg (the_scalers t) (the_checkers t) (negb (sd_ms s =? 255)) rng pok pr T G1 G2) with
    (before := []) (n1 := []) (n2 := names) (post := cells_of rs1) in Q.
  - subst m8. assert (Z1 : zlen rs0 + 1 = zlen (rs0 ++ [(s, row)])) by (rewrite zlen_app; reflexivity).
    assert (Z2 : zlen (cells_of rs0) + zlen (row_cells row) = zlen (cells_of (rs0 ++ [(s, row)]))).
    { rewrite flat_map_app. cbn [flat_map snd]. rewrite app_nil_r, zlen_app. reflexivity. }
    rewrite Z1, Z2 in H. apply IH in H; [|rewrite <- app_assoc; exact E]. subst l2.
    cbn [rows_remarks app]. unfold sat_remarks. rewrite <- Z2, app_nil_r, !app_assoc. reflexivity.
  - intros P. apply G6. rewrite X2 in P. now apply andb_prop in P.
  - intros c Ic. exact (ck_rng_ok t (m_cells m) T HCC c Ic).
  - intros c Ic. exact (ck_phs_ok t (m_cells m) T HCC c Ic).
  - intros c Ic P. apply (ck_dpl_ok t (m_cells m) T HCC c); [|exact Ic]. rewrite X2 in P. now apply andb_prop in P.
  - exact RM.
  - exact X2.
  - reflexivity.
  - reflexivity.
  - now symmetry.
  - exact MC.
Qed.
End Rows47.

Section Rows13.
Hypothesis T : has_cnr t = false.
Context (bs : bare_sat123) (bg : bare_sgn123) (a : attributes).
Hypothesis HA : is_msm1 a || is_msm3 a = has_range t.
Hypothesis HB : is_msm2 a || is_msm3 a = has_phase t.
Hypothesis GA : a_gnss a = gnss_letter g.
Hypothesis G1 : has_range t = true -> sgn1_rng_fine bg = map cd_rng (m_cells m).
Hypothesis G2 : has_phase t = true -> sgn1_phase_fine bg = map cd_phs (m_cells m).

Lemma rows13 rs1 : forall rs0 o l r, m_rows m = rs0 ++ rs1 ->
  each (map slots_of rs1) (o, zlen rs0, zlen (cells_of rs0))
    (fun '(o, sat_idx, sgn_idx) slots =>
       sat <~ quiet (py_index (map sd_id (m_sats m)) sat_idx) ;;
       rough <~ quiet (py_index (sat1_rng_rough bs) sat_idx) ;;
       let rng := f_div (f_of_int rough) (f_of_int 1024) in
       let rng_ok := is_msm1 a || is_msm3 a in
       let ph_ok := is_msm2 a || is_msm3 a in
       '(o, sgn_idx) <~ cells13_log (a_gnss a) (slot_fuel slots) names bg sat rng_ok rng ph_ok
                          slots 0 sgn_idx o ;;
       quiet (Ok (o, sat_idx + 1, sgn_idx))) = (l, Ok r) ->
  l = rows_remarks g t names (zlen (cells_of rs0)) rs1.
Proof.
  induction rs1 as [|[s row] rs1 IH]; intros rs0 o l r E H; cbn [map each] in H.
  { apply quiet_ok in H. apply H. }
  destruct (row_facts m names OK LN _ _ _ _ E) as (LR & FR & MC & FS). cbn beta in MC.
  apply also_ok in H. destruct H as (l1 & [[o1 i1] k1] & l2 & S & H & ->).
  rewrite (index_map m sd_id _ _ _ _ E) in S. apply also_ok in S. destruct S as (z0 & sat & m1 & Q & S & ->).
  apply quiet_ok in Q. destruct Q as (-> & Q). assert (sat = sd_id s) as -> by congruence. clear Q.
  apply also_ok in S. destruct S as (z1 & rough & m2 & Q & S & ->). apply quiet_ok in Q. destruct Q as (-> & _). cbv zeta in S.
  rewrite HA, HB in S. apply also_ok in S. destruct S as (m8 & [o2 k2] & m9 & Q & S & ->).
  apply quiet_ok in S. destruct S as (-> & S). assert (o2 = o1 /\ i1 = zlen rs0 + 1 /\ k2 = k1) as (-> & -> & ->) by (repeat split; congruence). clear S.
  unfold slots_of in Q. cbn [snd] in Q.
  pose proof (f_equal snd Q) as C. rewrite erase_cells13 in C. cbn [snd] in C. apply count13 in C. subst k1.
  rewrite GA in Q.
  assert (HCC : forall w sg get c, In (w, sg, get) (cell_columns t) -> In c (m_cells m) ->
    match sg with Unsigned => fits_u w (get c) | Signed => fits_s w (get c) end)
    by (destruct OK as (_ & _ & _ & _ & _ & _ & X); exact (cell_fits t (m_cells m) X)).
  assert (PS : has_phase t = has_phase t && negb (spoiled t [])).
  { unfold spoiled. destruct (m_type m); reflexivity. }
  rewrite PS in Q.
  apply (lines13 names g t s (m_cells m) bg) with (before := []) (n1 := []) (n2 := names) (post := cells_of rs1) in Q.
  - subst m8. assert (Z1 : zlen rs0 + 1 = zlen (rs0 ++ [(s, row)])) by (rewrite zlen_app; reflexivity).
    assert (Z2 : zlen (cells_of rs0) + zlen (row_cells row) = zlen (cells_of (rs0 ++ [(s, row)]))).
    { rewrite flat_map_app. cbn [flat_map snd]. rewrite app_nil_r, zlen_app. reflexivity. }
    rewrite Z1, Z2 in H. apply IH in H; [|rewrite <- app_assoc; exact E]. subst l2.
    cbn [rows_remarks app]. unfold sat_remarks.
    assert (RM : exists x, rough_ms t s = Some x) by (destruct (m_type m); try discriminate T; eexists; reflexivity). destruct RM as (x & ->).
    assert (HRt : has_rate t = false) by (destruct (m_type m); try discriminate T; reflexivity). rewrite HRt. cbn [andb app].
    rewrite <- Z2, app_nil_r. reflexivity.
  - exact T.
  - exact G1.
  - exact G2.
  - intros R. apply Forall_forall. intros c I. apply (HCC 15%nat Signed cd_rng); [|exact I].
    destruct (m_type m); try discriminate T; try discriminate R; cbn; tauto.
  - intros R. apply Forall_forall. intros c I. apply (HCC 22%nat Signed cd_phs); [|exact I].
    destruct (m_type m); try discriminate T; try discriminate R; cbn; tauto.
  - reflexivity.
  - reflexivity.
  - now symmetry.
  - exact MC.
Qed.
End Rows13.
End Rows.

(** The whole conversion. *)
Lemma quiet_nil {A} (r : res A) : fst (quiet r) = [].
Proof. reflexivity. Qed.
Lemma convert_lines m codes : msm_ok m -> msm_nonempty m -> codes_of (m_gnss m) (m_sigs m) = Some codes ->
  convert_log (Some (bare_of m)) = (msm_remarks m codes, Ok (Some (scaled_of m codes))).
Proof.
  intros OK NE EC. pose proof (convert_ok m OK NE) as CV. rewrite EC, <- erase_convert in CV.
  destruct (convert_log (Some (bare_of m))) as [l r] eqn:H. cbn [snd] in CV. subst r. f_equal.
  pose proof OK as (HH & HS & HG & HR & H64 & HSC & HCC).
  unfold convert_log in H. destruct (bare_of_parts m) as [EA EH]. rewrite EA, EH in H.
  assert (GL : forall g, String.eqb (gnss_letter g) "" = false) by (intros []; reflexivity).
  cbn [attributes_of a_gnss] in H. rewrite GL in H. rewrite (mask_nonzero m OK NE) in H.
  cbn [bare_header_of h_rs_id h_MMB h_IODS h_clk_steer h_clk_ext h_smth_indc h_smth_intr h_sgn_mask h_sat_mask h_cell_mask] in H.
  rewrite !mask_members_ok in H by (try assumption; lia).
  rewrite sgns_ok in H by apply HG. rewrite EC in H. cbv zeta in H.
  apply also_ok in H. destruct H as (z0 & sg & l1 & Q & H & ->). apply quiet_ok in Q. destruct Q as (-> & Q).
  assert (sg = map (fun c => (c, carrier (m_gnss m) c)) codes) as -> by congruence. clear Q.
  rewrite map_map in H. cbn [fst] in H. rewrite map_id in H.
  assert (LN : length codes = length (m_sigs m))
    by (apply codes_of_spec in EC; clear - EC; induction EC; cbn; congruence).
  rewrite bit_count_lsb, count_mask in H by (try assumption; lia).
  assert (ZS : zlen (map sd_id (m_sats m)) = zlen (m_rows m))
    by (rewrite zlen_map; unfold m_sats; now rewrite zlen_map).
  rewrite ZS in H. unfold cell_bits in H.
  rewrite slots_ok in H; [|apply Forall_impl with (2 := HR); intros r Hr; unfold zlen; now rewrite Hr|apply zlen_nonneg].
  apply also_ok in H. destruct H as (l2 & o & l3 & O & Q & ->). apply quiet_ok in Q. destruct Q as (-> & _).
  cbn [app]. rewrite app_nil_r. unfold msm_remarks.
  destruct (has_cnr (m_type m)) eqn:T.
  - set (bs := match bare_of m with Bare4567 _ _ s _ => s | _ =>
         {| sat_rng_ms := []; sat_ext_info := []; sat_rng_rough := []; sat_phase_rate_rough := [] |} end).
    set (bg := match bare_of m with Bare4567 _ _ _ g => g | _ =>
         {| sgn_rng_fine := []; sgn_phase_fine := []; sgn_lock_time := []; sgn_hc_indc := []; sgn_c2n := [];
            sgn_phase_rate_fine := [] |} end).
    assert (EB : bare_of m = Bare4567 (attributes_of m) (bare_header_of m) bs bg).
    { unfold bs, bg, bare_of. destruct (m_type m); try discriminate T; reflexivity. }
    rewrite EB in O. unfold convert_obs47_log in O.
    replace (if is_msm7 (attributes_of m) || is_msm6 (attributes_of m) then (SCALERS67, CHECKERS67)
                   else (SCALERS45, CHECKERS45)) with (the_scalers (m_type m), the_checkers (m_type m)) in O
        by (unfold the_scalers, the_checkers, is_msm7, is_msm6, attributes_of; cbn [a_subset];
            destruct (m_type m); reflexivity).
    assert (HA : is_msm7 (attributes_of m) || is_msm5 (attributes_of m) = has_rate (m_type m))
      by (unfold is_msm7, is_msm5, attributes_of; cbn [a_subset]; destruct (m_type m); reflexivity).
    apply also_ok in O. destruct O as (l4 & [[o1 i1] k1] & l5 & O & Q & ->).
    assert (l5 = []) as ->.
    { repeat (apply also_ok in Q; destruct Q as (? & ? & ? & Q' & Q & ->); apply quiet_ok in Q'; destruct Q' as (-> & _); cbn [app]).
      apply quiet_ok in Q. apply Q. }
    rewrite app_nil_r.
    apply (rows47 m codes OK LN T bs bg (attributes_of m) HA eq_refl) with (rs0 := []) in O; [exact O|..|reflexivity];
      unfold bs, bg, bare_of; destruct (m_type m); try discriminate T; try reflexivity; intros X; try discriminate X; reflexivity.
  - set (bs := match bare_of m with Bare123 _ _ s _ => s | _ => {| sat1_rng_rough := [] |} end).
    set (bg := match bare_of m with Bare123 _ _ _ g => g | _ =>
         {| sgn1_rng_fine := []; sgn1_phase_fine := []; sgn1_lock_time := []; sgn1_hc_indc := [] |} end).
    assert (EB : bare_of m = Bare123 (attributes_of m) (bare_header_of m) bs bg).
    { unfold bs, bg, bare_of. destruct (m_type m); try discriminate T; reflexivity. }
    rewrite EB in O. unfold convert_obs13_log in O.
    assert (HA : is_msm1 (attributes_of m) || is_msm3 (attributes_of m) = has_range (m_type m))
      by (unfold is_msm1, is_msm3, attributes_of; cbn [a_subset]; destruct (m_type m); try discriminate T; reflexivity).
    assert (HB : is_msm2 (attributes_of m) || is_msm3 (attributes_of m) = has_phase (m_type m))
      by (unfold is_msm2, is_msm3, attributes_of; cbn [a_subset]; destruct (m_type m); try discriminate T; reflexivity).
    apply also_ok in O. destruct O as (l4 & [[o1 i1] k1] & l5 & O & Q & ->).
    assert (l5 = []) as ->.
    { repeat (apply also_ok in Q; destruct Q as (? & ? & ? & Q' & Q & ->); apply quiet_ok in Q'; destruct Q' as (-> & _); cbn [app]).
      apply quiet_ok in Q. apply Q. }
    rewrite app_nil_r.
    apply (rows13 m codes OK LN T bs bg (attributes_of m) HA HB eq_refl) with (rs0 := []) in O; [exact O|..|reflexivity];
      unfold bs, bg, bare_of; destruct (m_type m); try discriminate T; try reflexivity; intros X; try discriminate X; reflexivity.
Qed.
