(** * ResolutionProofs: equal observation files show the same measurements (C77). *)
From Coq Require Import Reals Lra Lia Ascii String.
From Flocq Require Import Core.
From Verif Require Import PyBase PyDict PyFloat BitsSpec MessageSpec DecoderSpec MsmModel MsmSpec MsmScaleSpec MargoModel FormatSpec FormatProofs MargoSpec MargoProofs MargoFiles TransmissionSpec ResolutionSpec.
Local Open Scope list_scope.
Local Open Scope Z_scope.

(** ** Texts *)

Definition solid (t : list Z) : Prop := match t with c :: _ => c <> 32 | [] => False end.
Lemma padded_fun w w' t t' s : padded w t s -> padded w' t' s -> solid t -> solid t' -> t = t'.
Proof.
  intros (n & E & _) (n' & E' & _) A A'. rewrite E in E'. clear E w w' s. revert n' E'.
  induction n as [|n IH]; intros [|n'] E; cbn [repeat app] in E; [exact E| | |].
  - subst t. now elim A.
  - subst t'. now elim A'.
  - apply (IH n'). now injection E.
Qed.
Lemma decimal_head frc t n : decimal_text frc t n -> match t with c :: _ => c = 45 \/ digit c | [] => False end.
Proof.
  intros (sign & ip & fp & -> & D & N & _). destruct sign; [now left|]. destruct ip as [|c ip]; [now elim N|]. right. now inversion D.
Qed.
Lemma decimal_solid frc t n : decimal_text frc t n -> solid t.
Proof. intros D. apply decimal_head in D. destruct t as [|c t]; [exact D|]. cbn. unfold digit in D. lia. Qed.

Lemma shows_int_fun w z z' s : shows_int w z s -> shows_int w z' s -> z = z'.
Proof.
  intros (t & P & D) (t' & P' & D'). pose proof (padded_fun _ _ _ _ _ P P' (decimal_solid _ _ _ D) (decimal_solid _ _ _ D')) as <-.
  exact (decimal_text_fun _ _ _ _ D D').
Qed.
Lemma shows_value_fun w frc x x' s : shows_value w frc x s -> shows_value w frc x' s ->
  match x, x' with
  | None, None => True
  | Some x, Some x' => exists n, (Rabs (IZR n / IZR (10 ^ frc) - x) <= / 2 / IZR (10 ^ frc) + 2 / 1000000)%R /\
                                 (Rabs (IZR n / IZR (10 ^ frc) - x') <= / 2 / IZR (10 ^ frc) + 2 / 1000000)%R
  | _, _ => False
  end.
Proof.
  assert (N : solid [110; 97; 110]) by (cbn; lia).
  destruct x as [x|], x' as [x'|]; cbn [shows_value].
  - intros (t & n & P & D & B) (t' & n' & P' & D' & B').
    pose proof (padded_fun _ _ _ _ _ P P' (decimal_solid _ _ _ D) (decimal_solid _ _ _ D')) as <-.
    pose proof (decimal_text_fun _ _ _ _ D D') as <-. exists n. split; assumption.
  - intros (t & n & P & D & B) P'. pose proof (padded_fun _ _ _ _ _ P P' (decimal_solid _ _ _ D) N) as ->. apply decimal_head in D. unfold digit in D. lia.
  - intros P' (t & n & P & D & B). pose proof (padded_fun _ _ _ _ _ P P' (decimal_solid _ _ _ D) N) as ->. apply decimal_head in D. unfold digit in D. lia.
  - trivial.
Qed.

(** Fields and lines. *)
Lemma field_split a b r r' x x' : Forall plain a -> Forall plain b -> ~ plain x -> ~ plain x' -> a ++ x :: r = b ++ x' :: r' -> a = b /\ x = x' /\ r = r'.
Proof.
  intros A B X X'. revert b B. induction A as [|c a C A IH]; intros [|d b] B E; cbn [app] in E; injection E.
  - auto.
  - intros _ ->. inversion B. contradiction.
  - intros _ ->. contradiction.
  - intros E' ->. inversion B. destruct (IH b) as (-> & -> & ->); auto.
Qed.
Lemma comma : ~ plain 44. Proof. unfold plain. lia. Qed.
Lemma feed : ~ plain 10. Proof. unfold plain. lia. Qed.
Lemma csv_split : forall fs f f' fs' r r', Forall field (f :: fs) -> Forall field (f' :: fs') ->
  csv (f :: fs) ++ r = csv (f' :: fs') ++ r' -> f :: fs = f' :: fs' /\ r = r'.
Proof.
  induction fs as [|g fs IH]; intros f f' fs' r r' A A' E; inversion A as [|? ? F FS]; inversion A' as [|? ? F' FS']; subst; destruct fs' as [|g' fs'].
  - cbn [csv] in E. rewrite <- !app_assoc in E. apply (field_split f f' _ _ _ _ F F' feed feed) in E. destruct E as (-> & _ & ->). auto.
  - cbn [csv] in E. rewrite <- !app_assoc in E. apply (field_split f f' _ _ _ _ F F' feed comma) in E. destruct E as (_ & E & _). discriminate E.
  - cbn [csv] in E. rewrite <- !app_assoc in E. apply (field_split f f' _ _ _ _ F F' comma feed) in E. destruct E as (_ & E & _). discriminate E.
  - change (csv (f :: g :: fs)) with (f ++ 44 :: csv (g :: fs)) in E. change (csv (f' :: g' :: fs')) with (f' ++ 44 :: csv (g' :: fs')) in E.
    rewrite <- !app_assoc in E. apply (field_split f f' _ _ _ _ F F' comma comma) in E. destruct E as (-> & _ & E).
    destruct (IH g g' fs' r r' FS FS' E) as (H & ->). now rewrite H.
Qed.

(** ** Values *)
Local Open Scope R_scope.

(** Multiples of a step that is greater than the uncertainty. *)
Lemma step_exact q h n k k' : 0 <= h -> 2 * h < q -> Rabs (n - IZR k * q) <= h -> Rabs (n - IZR k' * q) <= h -> k = k'.
Proof.
  intros H Q A B. apply Rabs_le_inv in A. apply Rabs_le_inv in B.
  assert (D : Rabs (IZR (k - k') * q) < q) by (rewrite minus_IZR; apply Rabs_def1; lra).
  rewrite Rabs_mult, (Rabs_pos_eq q) in D by lra.
  assert (D1 : Rabs (IZR (k - k')) < 1). { apply (Rmult_lt_reg_r q); [lra|]. rewrite Rmult_1_l. exact D. }
  rewrite <- abs_IZR in D1. apply lt_IZR in D1. lia.
Qed.
(** Multiples of the last digit. *)
Lemma digit_exact u n k : 0 < u -> (/ 1000 <= u) -> Rabs (IZR n * u - IZR k * u) <= / 2 * u + 2 / 1000000 -> n = k.
Proof.
  intros U V A.
  assert (D : Rabs (IZR (n - k)) < 1).
  { rewrite minus_IZR. replace (IZR n * u - IZR k * u) with ((IZR n - IZR k) * u) in A by ring. rewrite Rabs_mult, (Rabs_pos_eq u) in A by lra.
    apply (Rmult_lt_reg_r u); [exact U|]. lra. }
  rewrite <- abs_IZR in D. apply lt_IZR in D. lia.
Qed.

(** Measurements are multiples of a step. *)
Definition step (ctl : margo_controls) (g : gnss) (t : msm_type) (p : param) (sgn : string) (sat : Z) : R :=
  match p with
  | CodeRange => light / 1000 / 2 ^ (if extended t then 29 else 24)
  | Phase => IZR (hertz ctl g sgn sat) / 1000 / 2 ^ (if extended t then 31 else 29)
  | CNR => / 16
  | LockTime => / 1000
  | HalfCycle => 1
  | Doppler => 0
  end.
Lemma measured_step ctl g t p sgn before s c x : p <> Doppler -> measurement ctl g t p sgn before s c = Some x ->
  exists k, x = IZR k * step ctl g t p sgn (sd_id s).
Proof.
  intros D. destruct p; cbn [measurement step]; [| |now elim D| | |].
  - destruct (_ && _); [|discriminate]. intros E. injection E as <-. unfold to_metres, rough_value.
    destruct t; cbn [extended]; 
    try (exists (sd_rough s * 16384 + cd_rng c)%Z; rewrite plus_IZR, mult_IZR; unfold light; field);
    try (exists (sd_ms s * 16777216 + sd_rough s * 16384 + cd_rng c)%Z; rewrite !plus_IZR, !mult_IZR; unfold light; field);
    (exists (sd_ms s * 536870912 + sd_rough s * 524288 + cd_rng c)%Z; rewrite !plus_IZR, !mult_IZR; unfold light; field).
  - destruct (_ && _); [|discriminate]. intros E. injection E as <-. unfold to_metres, rough_value.
    destruct t; cbn [extended]; 
    try (exists (sd_rough s * 524288 + cd_phs c)%Z; rewrite plus_IZR, mult_IZR; unfold light; field);
    try (exists (sd_ms s * 536870912 + sd_rough s * 524288 + cd_phs c)%Z; rewrite !plus_IZR, !mult_IZR; unfold light; field);
    (exists (sd_ms s * 2147483648 + sd_rough s * 2097152 + cd_phs c)%Z; rewrite !plus_IZR, !mult_IZR; unfold light; field).
  - destruct (has_cnr t); [|discriminate]. intros E. injection E as <-. destruct (extended t).
    + exists (cd_cnr c). unfold Rdiv. reflexivity.
    + exists (cd_cnr c * 16)%Z. rewrite mult_IZR. field.
  - destruct (_ || _); [|discriminate]. intros E. injection E as <-. now exists (lock_ms t (cd_lock c)).
  - destruct (_ || _); [|discriminate]. intros E. injection E as <-. destruct (cd_half c =? 0)%Z; [exists 0%Z|exists 1%Z]; ring.
Qed.
Lemma column_step ctl m p sgn sat x : p <> Doppler -> column_value ctl m p sgn sat = Some x ->
  exists k, x = IZR k * step ctl (m_gnss m) (m_type m) p sgn sat.
Proof.
  intros D E. assert (E' : reading ctl m p sgn sat = Some x).
  { unfold column_value in E. destruct p; try exact E. destruct (_ || _); [exact E|discriminate E]. }
  clear E. unfold reading, cell in E'. destruct (find _ (m_rows m)) as [(s, row)|] eqn:F; [|discriminate E'].
  destruct (cell_in _ _ _ _ _) as [(b, c)|]; [|discriminate E']. cbn [option_map fst snd] in E'.
  apply find_some in F. destruct F as (_ & F). apply Z.eqb_eq in F. cbn [fst] in F. subst sat. exact (measured_step _ _ _ _ _ _ _ _ _ D E').
Qed.

(** Carriers are above 700 MHz. *)
Lemma hertz_above ctl g sgn sat : controls_ok ctl -> known g sgn -> (1 <= sat <= slots g)%Z -> (700000000 <= hertz ctl g sgn sat)%Z.
Proof.
  intros C K S. assert (B : (1000000000 <= band_hz g sgn)%Z /\ (g = GLO -> (1246000000 <= band_hz g sgn)%Z) /\ (g = GLO -> match sgn with String "1" _ => band_hz g sgn = 1602000000 | _ => True end)%Z).
  { unfold known in K. destruct g; cbn in K; repeat (destruct K as [<-|K]; [cbn; repeat split; intros; try discriminate; lia|]); destruct K. }
  destruct B as (B & B1 & B2). unfold hertz. destruct g; try lia. specialize (B1 eq_refl). specialize (B2 eq_refl).
  destruct (C sat S) as (k & G & R). unfold glo_channel. rewrite G.
  destruct sgn as [|a sgn]; [lia|].
  destruct a as [[] [] [] [] [] [] [] []]; try lia.
Qed.

Lemma value_same ctl m m' p sgn sat w f : controls_ok ctl -> known (m_gnss m) sgn -> m_gnss m' = m_gnss m -> m_type m' = m_type m -> (1 <= sat <= slots (m_gnss m))%Z ->
  shows_value w (param_decimals p) (column_value ctl m p sgn sat) f -> shows_value w (param_decimals p) (column_value ctl m' p sgn sat) f ->
  same_value p (m_type m) (column_value ctl m p sgn sat) (column_value ctl m' p sgn sat).
Proof.
  intros C K G T S A A'. pose proof (shows_value_fun _ _ _ _ _ A A') as V. clear A A'.
  destruct (column_value ctl m p sgn sat) as [x|] eqn:E; destruct (column_value ctl m' p sgn sat) as [x'|] eqn:E'; try exact V. cbn [same_value].
  destruct V as (n & A & A').
  assert (CL : Rabs (x - x') <= 1 / IZR (10 ^ param_decimals p) + 4 / 1000000).
  { apply Rabs_le_inv in A. apply Rabs_le_inv in A'. apply Rabs_le.
    replace (1 / IZR (10 ^ param_decimals p)) with (/ 2 / IZR (10 ^ param_decimals p) + / 2 / IZR (10 ^ param_decimals p)); [lra|].
    unfold Rdiv. set (u := / IZR (10 ^ param_decimals p)). lra. }
  destruct (kept_exactly p (m_type m)) eqn:KE; [|exact CL]. clear CL.
  assert (D : p <> Doppler) by (intros ->; discriminate KE).
  destruct (column_step _ _ _ _ _ _ D E) as (k & X). destruct (column_step _ _ _ _ _ _ D E') as (k' & X'). rewrite G, T in X'.
  assert (k = k'); [|congruence]. subst x x'. clear E E'.
  pose proof (hertz_above ctl (m_gnss m) sgn sat C K S) as H. apply IZR_le in H.
  destruct p; cbn [param_decimals step kept_exactly] in *.
  - change (10 ^ 3)%Z with 1000%Z in A, A'. refine (step_exact _ _ _ _ _ _ _ A A'); [lra|].
    destruct (extended (m_type m)); [discriminate KE|]. unfold light. lra.
  - change (10 ^ 4)%Z with 10000%Z in A, A'. refine (step_exact _ _ _ _ _ _ _ A A'); [lra|].
    destruct (extended (m_type m)); lra.
  - now elim D.
  - change (10 ^ 2)%Z with 100%Z in A, A'. refine (step_exact _ _ _ _ _ _ _ A A'); lra.
  - change (10 ^ 3)%Z with 1000%Z in A, A'. transitivity n; [symmetry|]; apply (digit_exact (/ 1000)); (lra || assumption).
  - change (10 ^ 0)%Z with 1%Z in A, A'. unfold Rdiv in A, A'. rewrite Rinv_1 in A, A'. transitivity n; [symmetry|]; apply (digit_exact 1); (lra || assumption).
Qed.

(** ** Files *)
Local Open Scope Z_scope.
Lemma has_row_facts ctl g p sgn t m : has_row ctl g p sgn t m = true -> m_gnss m = g /\ m_type m = t.
Proof.
  unfold has_row. destruct (gnss_eq_dec _ _); [|discriminate]. destruct (type_eq_dec _ _); [|discriminate]. auto.
Qed.
Lemma row_same ctl p sgn m m' line : controls_ok ctl -> known (m_gnss m) sgn -> m_gnss m' = m_gnss m -> m_type m' = m_type m ->
  shows_message ctl p sgn m line -> shows_message ctl p sgn m' line -> same_readings ctl p sgn m m'.
Proof.
  intros C K G T (ft & fs & E & F & TI & V) (ft' & fs' & E' & F' & TI' & V').
  assert (H : ft :: fs = ft' :: fs'). { apply (csv_split fs ft ft' fs' [] [] F F'). now rewrite <- E, <- E'. }
  injection H as <- <-. split.
  - intros O O'. exact (shows_int_fun _ _ _ _ (TI O) (TI' O')).
  - intros sat S. rewrite G in V'. 
    assert (A : forall l fs0, Forall2 (fun k f => shows_value (param_width p) (param_decimals p) (column_value ctl m p sgn (Z.of_nat k)) f) l fs0 ->
       Forall2 (fun k f => shows_value (param_width p) (param_decimals p) (column_value ctl m' p sgn (Z.of_nat k)) f) l fs0 ->
       In (Z.to_nat sat) l -> exists f, shows_value (param_width p) (param_decimals p) (column_value ctl m p sgn sat) f /\
         shows_value (param_width p) (param_decimals p) (column_value ctl m' p sgn sat) f).
    { clear - S. intros l fs0 H. induction H as [|k f l fs0 A H IH]; intros H' I; [destruct I|]. inversion H' as [|? ? ? ? A' H'']; subst.
      destruct I as [->|I]; [|exact (IH H'' I)]. rewrite Z2Nat.id in A, A' by lia. exists f. split; assumption. }
    destruct (A _ _ V V') as (f & B & B'); [apply in_seq; lia|]. exact (value_same _ _ _ _ _ _ _ _ C K G T S B B').
Qed.
Lemma header_split g p r r' h h' : is_header1 g p h -> is_header1 g p h' -> h ++ r = h' ++ r' -> h = h' /\ r = r'.
Proof.
  intros (ft & fs & -> & F & _) (ft' & fs' & -> & F' & _) E. destruct (csv_split _ _ _ _ _ _ F F' E) as (-> & ->). auto.
Qed.
Lemma file_same ctl g p sgn t msgs msgs' text : controls_ok ctl -> known g sgn ->
  observation_file ctl g p sgn t msgs text -> observation_file ctl g p sgn t msgs' text ->
  Forall2 (same_readings ctl p sgn) (filter (has_row ctl g p sgn t) msgs) (filter (has_row ctl g p sgn t) msgs').
Proof.
  intros C K (h1 & h2 & rows & E & H1 & H2 & R) (h1' & h2' & rows' & E' & H1' & H2' & R').
  rewrite E in E'. clear E. destruct (header_split _ _ _ _ _ _ H1 H1' E') as (-> & E). clear E'.
  destruct H2 as (ft & fs & -> & F & _). destruct H2' as (ft' & fs' & -> & F' & _). destruct (csv_split _ _ _ _ _ _ F F' E) as (_ & E2).
  clear E F F' H1 H1' ft fs ft' fs'.
  assert (A : forall m, In m (filter (has_row ctl g p sgn t) msgs) -> m_gnss m = g /\ m_type m = t) by (intros m I; apply filter_In in I; exact (has_row_facts _ _ _ _ _ _ (proj2 I))).
  assert (A' : forall m, In m (filter (has_row ctl g p sgn t) msgs') -> m_gnss m = g /\ m_type m = t) by (intros m I; apply filter_In in I; exact (has_row_facts _ _ _ _ _ _ (proj2 I))).
  revert A A' R R' E2. generalize (filter (has_row ctl g p sgn t) msgs), (filter (has_row ctl g p sgn t) msgs'). clear - C K.
  intros l l' A A' R. revert l' rows' A'. induction R as [|m line l rows S R IH]; intros l' rows' A' R' E; destruct R' as [|m' line' l' rows' S' R'].
  - constructor.
  - cbn [List.concat] in E. destruct S' as (ft & fs & -> & _). destruct fs; destruct ft; discriminate E.
  - cbn [List.concat] in E. destruct S as (ft & fs & -> & _). destruct fs; destruct ft; discriminate E.
  - cbn [List.concat] in E.
    assert (X : line = line' /\ List.concat rows = List.concat rows').
    { clear - S S' E. destruct S as (ft & fs & -> & F & _). destruct S' as (ft' & fs' & -> & F' & _). destruct (csv_split _ _ _ _ _ _ F F' E) as (-> & ->). auto. }
    destruct X as (<- & X). destruct (A m (or_introl eq_refl)) as (G & T). destruct (A' m' (or_introl eq_refl)) as (G' & T').
    constructor; [apply (row_same ctl p sgn m m' line); [exact C|now rewrite G|congruence|congruence|exact S|exact S']|].
    apply (IH (fun x I => A x (or_intror I)) l' rows' (fun x I => A' x (or_intror I)) R' X).
Qed.
