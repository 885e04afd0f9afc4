(** * PropertiesCarriers: C49, the exact condition on the GLONASS channels. *)
From Coq Require Import Ascii Reals Psatz Lia.
From Flocq Require Import Core BinarySingleNaN.
From Verif Require Import PyBase PyDict PyFloat PyVal TablesModel FloatProofs BitsProofs MsmSpec MsmModel MsmScaleSpec DecoderModel MargoModel MargoSpec MargoProofs MargoFiles ControlsModel ControlsSpec ControlsProofs PropertiesControls.
Local Open Scope string_scope.
Local Open Scope list_scope.
Local Open Scope Z_scope.

(** ** Carriers as exact numbers *)
Definition sixteenths (sgn : string) (k : Z) : Z :=
  match sgn with String "1" _ => 25632 + 9 * k | _ => 19936 + 7 * k end.

Definition in_range (ctl : margo_controls) : Prop :=
  forall sat, 1 <= sat <= 24 -> exists k, zget (glo_lit_tab ctl) sat = Some k /\ Z.abs k < 2 ^ 49.

Lemma range_lit ctl sat : in_range ctl -> 1 <= sat <= 24 ->
  zindex (glo_lit_tab ctl) sat = Ok (glo_channel ctl sat) /\ Z.abs (glo_channel ctl sat) < 2 ^ 49.
Proof.
  intros C S. destruct (C sat S) as (k & E & B). unfold glo_channel, zindex, dindex. unfold zget in E.
  rewrite E. unfold zget. rewrite E. auto.
Qed.

Lemma carrier_dyadic ctl sgn sat : in_range ctl -> In sgn (map snd (signal_codes GLO)) -> 1 <= sat <= 24 ->
  dyadic (sat_carrier ctl GLO sgn sat) (sixteenths sgn (glo_channel ctl sat)) (-4).
Proof.
  intros C S R. destruct (range_lit ctl sat C R) as (_ & B). set (k := glo_channel ctl sat) in *.
  assert (K : dyadic (f_of_int k) k 0) by (apply f_of_int_exact; lia).
  assert (X : forall c n m, carrier GLO sgn = f_of_int c -> m = f_mul (f_of_int n) (f_pow2 (-4)) -> 0 < n < 10 -> 0 < c < 2000 ->
     dyadic (f_add (carrier GLO sgn) (f_mul m (f_of_int k))) (16 * c + n * k) (-4)).
  { intros c n m E1 E2 N1 N2. rewrite E1.
    assert (M : dyadic m n (-4)).
    { rewrite E2. replace n with (n * 1) at 2 by lia. change (-4) with (0 + -4) at 2.
      apply mul_exact; [apply f_of_int_exact; lia|apply f_pow2_exact; lia|lia|lia]. }
    pose proof (mul_exact m (f_of_int k) n k (-4) 0 M K ltac:(nia) ltac:(lia)) as P. change (-4 + 0) with (-4) in P.
    apply (add_exact _ _ c (n * k) _ 0 (-4) (-4) (f_of_int_exact c ltac:(lia)) P); [|lia|lia|nia|lia].
    change (2 ^ (0 - -4)) with 16. change (2 ^ (-4 - -4)) with 1. lia. }
  unfold sat_carrier. fold k. cbn [signal_codes map snd In] in S.
  destruct S as [S|[S|[S|[S|[]]]]]; subst sgn; cbn [sixteenths].
  - apply (X 1602 9); [vm_compute; reflexivity|vm_compute; reflexivity|lia|lia].
  - apply (X 1602 9); [vm_compute; reflexivity|vm_compute; reflexivity|lia|lia].
  - apply (X 1246 7); [vm_compute; reflexivity|vm_compute; reflexivity|lia|lia].
  - apply (X 1246 7); [vm_compute; reflexivity|vm_compute; reflexivity|lia|lia].
Qed.

Lemma sixteenths_zero sgn k : sixteenths sgn k = 0 <-> k = -2848.
Proof. unfold sixteenths. destruct sgn as [|[[] [] [] [] [] [] [] []] r]; lia. Qed.
Lemma sixteenths_bound sgn k : Z.abs k < 2 ^ 49 -> Z.abs (sixteenths sgn k) < 2 ^ 53.
Proof. unfold sixteenths. destruct sgn as [|[[] [] [] [] [] [] [] []] r]; lia. Qed.

Definition nonzero_f (x : flt) : bool := match x with S754_zero _ => false | _ => true end.
Lemma fdiv_nonzero x y : nonzero_f y = true -> py_fdiv x y = Ok (f_div x y).
Proof. destruct y; cbn; intros H; try discriminate H; reflexivity. Qed.
Lemma val_nonzero x r : is_val x r -> r <> 0%R -> nonzero_f x = true.
Proof. intros (_ & _ & E) N. destruct x; [|reflexivity|reflexivity|reflexivity]. elim N. now rewrite <- E. Qed.
Lemma val_zero x : is_val x 0%R -> exists s, x = S754_zero s.
Proof.
  intros (_ & F & E). destruct x as [s|s| |s m e]; try discriminate F; [eauto|]. exfalso. cbn in E.
  apply eq_0_F2R in E. destruct s; discriminate E.
Qed.

Lemma carrier_nonzero ctl sgn sat : in_range ctl -> In sgn (map snd (signal_codes GLO)) -> 1 <= sat <= 24 ->
  (nonzero_f (sat_carrier ctl GLO sgn sat) = true <-> glo_channel ctl sat <> -2848).
Proof.
  intros C S R. pose proof (carrier_dyadic ctl sgn sat C S R) as D. unfold dyadic in D. split.
  - intros N E. apply (sixteenths_zero sgn) in E. rewrite E in D. rewrite Rmult_0_l in D. apply val_zero in D. destruct D as (s & D).
    rewrite D in N. discriminate N.
  - intros N. apply (val_nonzero _ _ D). apply Rmult_integral_contrapositive_currified.
    + apply not_0_IZR. intros E. apply sixteenths_zero in E. auto.
    + apply Rgt_not_eq, bpow_gt_0.
Qed.

Definition light : flt := f_mul (dec_lit 299792458 3) (dec_lit 1 3).
Lemma light_val : exists l, is_val light l /\ (1 < l < 512)%R.
Proof.
  exists (SF2R radix2 light). split; [split; [vm_compute; reflexivity|split; [vm_compute; reflexivity|reflexivity]]|].
  assert (E : exists m e, light = S754_finite false m e /\ Z.pos m * 2 ^ 60 > 2 ^ (60 - e) /\ Z.pos m * 2 ^ 60 < 512 * 2 ^ (60 - e) /\ e = -44).
  { vm_compute. eexists _, _. split; [reflexivity|]. repeat split; reflexivity. }
  destruct E as (m & e & -> & A & B & ->). cbn [SF2R cond_Zopp]. unfold F2R. cbn [Fnum Fexp].
  assert (A' : 2 ^ 44 < Z.pos m < 512 * 2 ^ 44) by lia.
  assert (P : (0 < bpow radix2 (-44))%R) by apply bpow_gt_0.
  assert (Q : (IZR (2 ^ 44) * bpow radix2 (-44) = 1)%R).
  { change (IZR (2 ^ 44)) with (bpow radix2 44). rewrite <- bpow_plus. reflexivity. }
  split.
  - rewrite <- Q. apply Rmult_lt_compat_r; [exact P|]. apply IZR_lt. lia.
  - apply Rlt_le_trans with (IZR (512 * 2 ^ 44) * bpow radix2 (-44))%R.
    + apply Rmult_lt_compat_r; [exact P|]. apply IZR_lt. lia.
    + rewrite mult_IZR, Rmult_assoc, Q. lra.
Qed.

Lemma rnd_mono a b : (a <= b)%R -> (rnd a <= rnd b)%R.
Proof.
  intros H. unfold rnd. change (SpecFloat.fexp fprec femax) with (FLT_exp (-1074) 53).
  apply round_le; [apply FLT_exp_valid; reflexivity|apply valid_rnd_N|exact H].
Qed.
Lemma rnd_away r : (bpow radix2 (-60) <= Rabs r)%R -> rnd r <> 0%R.
Proof.
  intros H E. assert (X : forall e, (-1074 <= e)%Z -> rnd (bpow radix2 e) = bpow radix2 e).
  { intros e L. replace (bpow radix2 e) with (1 * bpow radix2 e)%R by ring. apply (rnd_exact 1 e); lia. }
  pose proof (bpow_gt_0 radix2 (-60)) as P. unfold Rabs in H. destruct (Rcase_abs r) as [N|N].
  - assert (L : (rnd r <= rnd (- bpow radix2 (-60)))%R) by (apply rnd_mono; lra).
    replace (- bpow radix2 (-60))%R with (IZR (-1) * bpow radix2 (-60))%R in L by lra. rewrite rnd_exact in L by lia. rewrite E in L. lra.
  - assert (L : (rnd (bpow radix2 (-60)) <= rnd r)%R) by (apply rnd_mono; lra).
    rewrite X in L by lia. rewrite E in L. lra.
Qed.

Lemma wave_nonzero_wide ctl sgn sat : in_range ctl -> In sgn (map snd (signal_codes GLO)) -> 1 <= sat <= 24 ->
  glo_channel ctl sat <> -2848 -> nonzero_f (wave ctl GLO sgn sat) = true.
Proof.
  intros C S R N. pose proof (carrier_dyadic ctl sgn sat C S R) as D. unfold dyadic in D.
  set (z := sixteenths sgn (glo_channel ctl sat)) in *.
  assert (NZ : z <> 0) by (intros E; now apply sixteenths_zero in E).
  assert (ZB : Z.abs z < 2 ^ 53) by (apply sixteenths_bound; apply (range_lit ctl sat C R)).
  destruct light_val as (l & L & LB). unfold wave. fold light.
  assert (AZ : (1 <= Rabs (IZR z) <= bpow radix2 53)%R).
  { rewrite <- abs_IZR. split; [apply (IZR_le 1); lia|]. change (bpow radix2 53) with (IZR (2 ^ 53)). apply IZR_le. lia. }
  assert (B4 : bpow radix2 (-4) = (/ 16)%R) by (cbn; lra).
  assert (F : (IZR z * bpow radix2 (-4) <> 0)%R).
  { apply Rmult_integral_contrapositive_currified; [now apply not_0_IZR|apply Rgt_not_eq, bpow_gt_0]. }
  assert (Q : (Rabs (l / (IZR z * bpow radix2 (-4))) = 16 * l / Rabs (IZR z))%R).
  { unfold Rdiv. rewrite Rabs_mult, Rabs_inv, Rabs_mult, B4, (Rabs_pos_eq l), (Rabs_pos_eq (/ 16)) by lra. field. lra. }
  assert (UP : (16 * l / Rabs (IZR z) < bpow radix2 20)%R).
  { apply Rle_lt_trans with (16 * l)%R; [|change (bpow radix2 20) with (IZR (2 ^ 20)); lra].
    unfold Rdiv. rewrite <- (Rmult_1_r (16 * l)) at 2. apply Rmult_le_compat_l; [lra|]. rewrite <- Rinv_1. apply Rinv_le; lra. }
  assert (LOW : (bpow radix2 (-60) <= 16 * l / Rabs (IZR z))%R).
  { apply Rle_trans with (16 * l * bpow radix2 (-53))%R.
    - change (-60) with (-7 + -53). rewrite bpow_plus. apply Rmult_le_compat_r; [apply bpow_ge_0|]. cbn. lra.
    - unfold Rdiv. apply Rmult_le_compat_l; [lra|]. change (-53) with (- (53)). rewrite bpow_opp. apply Rinv_le; lra. }
  assert (SM : small (rnd (l / (IZR z * bpow radix2 (-4))))) by (apply (rnd_error _ 20); [lia|]; now rewrite Q).
  pose proof (div_val _ _ _ _ L D F SM) as V. apply (val_nonzero _ _ V). apply rnd_away. now rewrite Q.
Qed.

(** ** Printing *)
Lemma crr_frq_wide ctl sgn : in_range ctl -> In sgn (map snd (signal_codes GLO)) ->
  make_crr_frq ctl "R" sgn = Ok (map (sat_carrier ctl GLO sgn) (zrange 1 25)).
Proof.
  intros C S. unfold make_crr_frq. change "R" with (gnss_letter GLO) at 1 2. rewrite (crr_frq_code GLO sgn S), max_sats_ok. cbn [bind]. cbv zeta.
  change (slots GLO) with 24.
  assert (L : length (zrange 1 (24 + 1)) = Z.to_nat 24) by reflexivity.
  cbn [gnss_letter String.eqb Ascii.eqb Bool.eqb negb].
  assert (E : existsb (String.eqb sgn) ["1C"; "1P"; "2C"; "2P"] = true).
  { apply existsb_exists. exists sgn. split; [exact S|apply String.eqb_refl]. }
  rewrite E. cbn [negb]. rewrite combine_repeat by exact L.
  rewrite (map_res_ok _ (fun p => f_add (snd p) (f_mul (if existsb (String.eqb sgn) ["1C"; "1P"] then dec_lit 5625 4 else dec_lit 4375 4) (f_of_int (glo_channel ctl (fst p)))))).
  2:{ intros [sat fc] I. apply in_map_iff in I. destruct I as (s' & X & I). inversion X; subst s' fc.
      apply zrange_In in I. destruct (range_lit ctl sat C ltac:(lia)) as (Z1 & B). rewrite Z1. cbn [bind].
      rewrite (proj1 (small_float (glo_channel ctl sat) ltac:(lia))). reflexivity. }
  f_equal. rewrite map_map. apply map_ext. intros sat. unfold sat_carrier. cbn [fst snd]. f_equal. f_equal.
  cbn [signal_codes map snd In] in S.
  destruct S as [S|[S|[S|[S|[]]]]]; subst sgn; reflexivity.
Qed.

Lemma lambdas_wide ctl sgn : in_range ctl -> (forall sat, 1 <= sat <= 24 -> glo_channel ctl sat <> -2848) -> In sgn (map snd (signal_codes GLO)) ->
  make_lambdas ctl (gnss_letter GLO) sgn = Ok (map (wave ctl GLO sgn) (zrange 1 (slots GLO + 1))).
Proof.
  intros C NZ S. unfold make_lambdas. change (gnss_letter GLO) with "R". rewrite (crr_frq_wide ctl sgn C S). cbn [bind].
  rewrite (map_res_ok _ (fun f => f_div (f_mul CRNG_1MS (dec_lit 1 3)) f)).
  2:{ intros f I. apply in_map_iff in I. destruct I as (sat & <- & I). apply zrange_In in I.
      apply fdiv_nonzero. apply carrier_nonzero; [exact C|exact S|lia|]. apply NZ. lia. }
  now rewrite map_map.
Qed.

Lemma map_res_err {A B} (f : A -> res B) l x e : In x l -> f x = Err e -> exists e', map_res f l = Err e'.
Proof.
  induction l as [|a r IH]; intros I E; [destruct I|]. cbn [map_res]. destruct I as [->|I].
  - rewrite E. eexists. reflexivity.
  - destruct (f a); [|eexists; reflexivity]. cbn [bind]. destruct (IH I E) as (e' & X). rewrite X. eexists. reflexivity.
Qed.
Lemma lambdas_zero ctl sgn sat : in_range ctl -> 1 <= sat <= 24 -> glo_channel ctl sat = -2848 -> In sgn (map snd (signal_codes GLO)) ->
  exists e, make_lambdas ctl "R" sgn = Err e.
Proof.
  intros C R K S. unfold make_lambdas. rewrite (crr_frq_wide ctl sgn C S). cbn [bind].
  apply (map_res_err _ _ (sat_carrier ctl GLO sgn sat) EZeroDiv).
  - apply in_map. apply zrange_In. lia.
  - assert (N : nonzero_f (sat_carrier ctl GLO sgn sat) = false).
    { destruct (nonzero_f _) eqn:X; [|reflexivity]. apply (carrier_nonzero ctl sgn sat C S R) in X. congruence. }
    unfold py_fdiv. destruct (sat_carrier ctl GLO sgn sat); try discriminate N. reflexivity.
Qed.

Lemma buffer_wide ctl t p : in_range ctl -> (forall sat, 1 <= sat <= 24 -> glo_channel ctl sat <> -2848) -> printable GLO t p ->
  to_print_buffer ctl p = Ok (buffer_of ctl GLO t p).
Proof.
  intros C NZ (EG & ET & D1 & D2 & D3 & D4 & D5 & D6 & DL). unfold to_print_buffer. set (g := GLO) in *. rewrite EG, ET.
  replace (gnss_supported (gnss_letter g)) with true by (destruct g; reflexivity). cbn [negb]. cbv zeta.
  rewrite row_time_ok.
  rewrite max_sats_ok. cbn [bind].
  change "C" with (param_letter CodeRange). change "L" with (param_letter Phase). change "D" with (param_letter Doppler).
  change "S" with (param_letter CNR). change "T" with (param_letter LockTime). change "A" with (param_letter HalfCycle).
  set (o := ob_obs p) in *.
  assert (NE : forall (q : param) V (d : obs_dict V) q' v sgn, dict_ok g d -> slen sgn = 2 -> q <> q' ->
     sget (entries g q' t (row_time ctl g p) d v) (obs_file g q sgn t) = None).
  { intros q V d q' v sgn Hd L N. apply entries_other; [apply (dict_len g d Hd)|exact L|exact N]. }
  rewrite (param_rows_ok g CodeRange t _ (o_rng o) _ (cell_of ctl g o CodeRange) []).
  2: exact D1.
  2:{ intros slot ob I. eexists; split; [reflexivity|]. intros sat _. cbn [cell_of]. now rewrite (proj2 (dict_lookup g _ slot ob sat D1 I)). }
  2: reflexivity.
  cbn [bind app].
  rewrite (param_rows_ok g Phase t _ (o_phs o) _ (cell_of ctl g o Phase)).
  2: exact D2.
  2:{ intros slot ob I. assert (IC : In slot (map snd (signal_codes g))) by (apply D2; change slot with (fst (slot, ob)); now apply in_map).
      unfold cell_phase. pose proof (lambdas_wide ctl slot C NZ IC) as LW; change GLO with g in LW; rewrite LW; clear LW. cbn [bind]. eexists; split; [reflexivity|].
      intros sat R. cbn beta. cbn [cell_of]. rewrite (proj2 (dict_lookup g _ slot ob sat D2 I)).
      destruct (zget ob sat) as [v|]; [|destruct (_ && _); reflexivity]. cbv zeta. cbn [option_map].
      rewrite lambda_index by exact R. cbn [bind].
      rewrite fdiv_nonzero by (apply wave_nonzero_wide; [exact C|exact IC|exact R|apply NZ; exact R]). cbn [bind]. unfold ambiguous.
      destruct (half_cycle_enable ctl); cbn [negb andb]; [reflexivity|].
      destruct (sget (o_hca o) slot) as [h|]; [|reflexivity]. destruct (zget h sat) as [[]|]; reflexivity. }
  2:{ intros sgn L. apply NE; [exact D1|exact L|discriminate]. }
  cbn [bind].
  rewrite (param_rows_ok g Doppler t _ (o_dpl o) _ (cell_of ctl g o Doppler)).
  2: exact D5.
  2:{ intros slot ob I. assert (IC : In slot (map snd (signal_codes g))) by (apply D5; change slot with (fst (slot, ob)); now apply in_map).
      unfold cell_doppler. pose proof (lambdas_wide ctl slot C NZ IC) as LW; change GLO with g in LW; rewrite LW; clear LW. cbn [bind]. eexists; split; [reflexivity|].
      intros sat R. cbn beta. cbn [cell_of]. rewrite (proj2 (dict_lookup g _ slot ob sat D5 I)).
      destruct (zget ob sat) as [v|]; [|reflexivity]. cbn [option_map].
      rewrite lambda_index by exact R. cbn [bind].
      rewrite fdiv_nonzero by (apply wave_nonzero_wide; [exact C|exact IC|exact R|apply NZ; exact R]). reflexivity. }
  2:{ intros sgn L. apply none_app; apply NE; solve [assumption|discriminate]. }
  cbn [bind].
  rewrite (param_rows_ok g CNR t _ (o_c2n o) _ (cell_of ctl g o CNR)).
  2: exact D6.
  2:{ intros slot ob I. eexists; split; [reflexivity|]. intros sat _. cbn [cell_of]. now rewrite (proj2 (dict_lookup g _ slot ob sat D6 I)). }
  2:{ intros sgn L. repeat apply none_app; apply NE; solve [assumption|discriminate]. }
  cbn [bind].
  set (B4 := ((entries g CodeRange t _ _ _ ++ _) ++ _) ++ _).
  assert (B4N : forall q sgn, slen sgn = 2 -> q <> CodeRange -> q <> Phase -> q <> Doppler -> q <> CNR -> sget B4 (obs_file g q sgn t) = None).
  { intros q sgn L N1 N2 N3 N4. unfold B4. repeat apply none_app; apply NE; assumption. }
  assert (E5 : (if lock_time_enable ctl
     then param_rows (gnss_letter g) (type_name t) (param_letter LockTime) (row_time ctl g p) (slots g) (o_ltm o) cell_lock B4 else @Ok print_buffer B4)
     = Ok (B4 ++ (if lock_time_enable ctl then entries g LockTime t (row_time ctl g p) (o_ltm o) (cell_of ctl g o LockTime) else []))).
  { destruct (lock_time_enable ctl); [|now rewrite app_nil_r]. apply param_rows_ok.
    - exact D3.
    - intros slot ob I. eexists; split; [reflexivity|]. intros sat _. cbn beta. cbn [cell_of].
      rewrite (proj2 (dict_lookup g _ slot ob sat D3 I)). destruct (zget ob sat) as [v|] eqn:E; [|reflexivity].
      cbn [option_map]. rewrite (proj1 (small_float v (DL slot sat v ltac:(rewrite (proj2 (dict_lookup g _ slot ob sat D3 I)); exact E)))). reflexivity.
    - intros sgn L. apply B4N; solve [assumption|discriminate]. }
  rewrite E5. cbn [bind].
  assert (E6 : forall B : print_buffer, (forall sgn, slen sgn = 2 -> sget B (obs_file g HalfCycle sgn t) = None) ->
     (if half_cycle_enable ctl
     then param_rows (gnss_letter g) (type_name t) (param_letter HalfCycle) (row_time ctl g p) (slots g) (o_hca o) cell_half B else Ok B)
     = Ok (B ++ (if half_cycle_enable ctl then entries g HalfCycle t (row_time ctl g p) (o_hca o) (cell_of ctl g o HalfCycle) else []))).
  { intros B HB. destruct (half_cycle_enable ctl) eqn:HE; [|now rewrite app_nil_r]. apply param_rows_ok.
    - exact D4.
    - intros slot ob I. eexists; split; [reflexivity|]. intros sat _. cbn beta. cbn [cell_of].
      rewrite (proj2 (dict_lookup g _ slot ob sat D4 I)). destruct (zget ob sat) as [v|]; reflexivity.
    - exact HB. }
  rewrite E6.
  - unfold buffer_of. cbv zeta. fold o. unfold B4. rewrite <- !app_assoc. reflexivity.
  - intros sgn L. apply none_app; [apply B4N; solve [assumption|discriminate]|].
    destruct (lock_time_enable ctl); [|reflexivity]. apply NE; solve [assumption|discriminate].
Qed.

Lemma header_wide ctl p sgn t : in_range ctl -> In sgn (map snd (signal_codes GLO)) -> exists h, make_header ctl (obs_file GLO p sgn t) = Ok h.
Proof.
  intros C S. pose proof (code_length GLO sgn S) as L. unfold make_header.
  rewrite name_gnss, name_param, name_sgn by exact L. cbv zeta. rewrite format_ok. cbn [bind].
  rewrite max_sats_ok. cbn [bind]. replace (MARGO_FILE_ID (param_letter p)) with (@Ok Z (param_id p)) by (destruct p; reflexivity).
  cbn [bind]. change (gnss_letter GLO) with "R" at 1. rewrite (crr_frq_wide ctl sgn C S), crr_frq_code by assumption. cbn [bind].
  eexists. reflexivity.
Qed.

Lemma append_wide ctl ok t : in_range ctl -> forall pbuf st,
  Forall (fun r => exists p sgn, fst r = obs_file GLO p sgn t /\ In sgn (map snd (signal_codes GLO))) pbuf ->
  snd (append_rows ctl ok st pbuf) = Ok tt.
Proof.
  intros C. induction pbuf as [|[f row] r IH]; intros st F; [reflexivity|].
  inversion F as [|? ? (p & sgn & E & S) F']; subst. cbn [fst] in E. subst f. pose proof (code_length GLO sgn S) as L.
  cbn [append_rows]. rewrite name_param, format_ok.
  assert (A : forall line, exists b, snd (append ctl ok st (obs_file GLO p sgn t) line) = Ok b).
  { intros line. unfold append. cbv zeta. assert (MP : exists d, margo_path (obs_file GLO p sgn t) = Ok d).
    { unfold margo_path. rewrite name_gnss by exact L. eexists. reflexivity. }
    destruct MP as (d & MP). destruct (header_wide ctl p sgn t C S) as ((h1, h2) & H).
    destruct (negb (is_open st (obs_file GLO p sgn t))).
    - unfold create_ofile. rewrite MP. destruct (ok _); [|eexists; reflexivity]. rewrite H. eexists. reflexivity.
    - rewrite MP. eexists. reflexivity. }
  destruct (A (format_obs_string row (param_width p) (param_decimals p))) as (b & B).
  destruct (append ctl ok st (obs_file GLO p sgn t) _) as (st', res). cbn [snd] in B. subst res. apply IH. exact F'.
Qed.

(** ** The theorem *)
(** [m]: controls that INI files [i] give (C48), with channels below 2^49 in size.  Every GLONASS
    message is printed, in every state of the printer and of the disk, exactly if no channel is
    -2848.  Left out: channels of 2^49 and more in size. *)
Theorem C49_exact : forall i m, margo_from i m ->
  (forall key v k, says i "LITERALS" key v -> is_int_text v k -> Z.abs k < 2 ^ 49) ->
  ((forall t p can_create st, printable GLO t p -> snd (print_observables m can_create st p) = Ok tt) <->
   (forall sat, 1 <= sat <= 24 -> zget (glo_lit_tab m) sat <> Some (-2848))).
Proof.
  intros i m (A & _) B.
  assert (C : in_range m).
  { intros sat S. destruct (A sat S) as (key & v & k & V & _ & I & E). exists k. split; [exact E|]. eauto. }
  assert (G : forall sat, 1 <= sat <= 24 -> zget (glo_lit_tab m) sat = Some (glo_channel m sat)).
  { intros sat S. destruct (C sat S) as (k & E & _). unfold glo_channel. now rewrite E. }
  split.
  - intros P sat S E. rewrite (G sat S) in E. assert (K : glo_channel m sat = -2848) by congruence.
    set (o := {| o_rng := []; o_phs := [("1C", [])]; o_ltm := []; o_hca := []; o_dpl := []; o_c2n := [] |}).
    set (x := {| ob_atr := {| a_gnss := "R"; a_subset := "MSM7"; a_msg_number := 1087 |}; ob_obs := o; ob_hdr := {| d_signals := []; d_sats := []; d_time := 0; d_day := 0 |};
                 ob_aux := {| x_rs_id := 0; x_MMB := 0; x_IODS := 0; x_clk_steer := (0, ""); x_clk_ext := (0, ""); x_smth_indc := (0, ""); x_smth_intr := (0, "") |} |}).
    destruct (lambdas_zero m "1C" sat C S K ltac:(now left)) as (e & L).
    specialize (P MSM7 x (fun _ => true) margo_init). assert (PR : printable GLO MSM7 x).
    { split; [reflexivity|]. split; [reflexivity|]. assert (N : forall V, @dict_ok V GLO []) by (intros V; split; [constructor|intros ? []]).
      split; [apply N|]. split; [split; [repeat constructor; intros []|intros sgn [<-|[]]; now left]|].
      split; [apply N|]. split; [apply N|]. split; [apply N|]. split; [apply N|]. discriminate. }
    assert (R2 : forall time h rv, param_rows "R" "MSM7" "L" time 24 [("1C", [])] (cell_phase m "R" h) rv = Err e).
    { intros time h rv. unfold param_rows. cbn [for_each]. change (String.eqb (make_obs_file_name "R" "L" "1C" "MSM7") "") with false. cbv iota.
      unfold cell_phase. rewrite L. reflexivity. }
    assert (TP : to_print_buffer m x = Err e).
    { unfold to_print_buffer. cbv zeta. change (a_gnss (ob_atr x)) with "R". change (a_subset (ob_atr x)) with "MSM7". change (gnss_supported "R") with true. cbn [negb].
      change (MAX_SATS "R") with (@Ok Z 24). unfold bind at 1. change (o_phs (ob_obs x)) with [("1C", @nil (Z * flt))]. 
      change (o_rng (ob_obs x)) with (@nil (string * list (Z * flt))).
      match goal with |- context[param_rows "R" "MSM7" "C" ?t 24 [] cell_value []] => change (param_rows "R" "MSM7" "C" t 24 [] cell_value []) with (@Ok print_buffer []) end.
      unfold bind at 1. rewrite R2. reflexivity. }
    specialize (P PR). unfold print_observables in P. rewrite TP in P. discriminate P.
  - intros N t p ok st P. assert (NZ : forall sat, 1 <= sat <= 24 -> glo_channel m sat <> -2848).
    { intros sat S E. apply (N sat S). rewrite (G sat S), E. reflexivity. }
    unfold print_observables. rewrite (buffer_wide m t p C NZ P). apply (append_wide m ok t C).
    destruct P as (_ & _ & D1 & D2 & D3 & D4 & D5 & D6 & _).
    assert (X : forall V q tm (d : obs_dict V) v, dict_ok GLO d ->
       Forall (fun r => exists p sgn, fst r = obs_file GLO p sgn t /\ In sgn (map snd (signal_codes GLO))) (entries GLO q t tm d v)).
    { intros V q tm d v (_ & D). apply Forall_forall. intros r I. unfold entries in I. apply in_map_iff in I. destruct I as ((slot, ob) & <- & I).
      exists q, slot. split; [reflexivity|]. apply D. apply (in_map fst) in I. exact I. }
    unfold buffer_of. cbv zeta. repeat (apply Forall_app; split); try (now apply X).
    + destruct (lock_time_enable m); [now apply X|constructor].
    + destruct (half_cycle_enable m); [now apply X|constructor].
Qed.
Print Assumptions C49_exact.

Definition small_channels (i : ini) : bool :=
  forallb (fun key => match get_option i "LITERALS" key with
                      | Some v => match py_int v with Ok k => Z.abs k <? 2 ^ 49 | Err _ => true end
                      | None => true
                      end) (options i "LITERALS").
Lemma small_channels_ok i : small_channels i = true ->
  forall key v k, says i "LITERALS" key v -> is_int_text v k -> Z.abs k < 2 ^ 49.
Proof.
  intros H key v k S I. unfold small_channels in H. rewrite forallb_forall in H.
  assert (O : In key (options i "LITERALS")) by (apply options_iff; eauto). specialize (H key O).
  apply says_iff in S. apply py_int_iff in I. rewrite S, I in H. now apply Z.ltb_lt.
Qed.
(** Both cases exist: the shipped defaults.ini, and the file with channel -2848. *)
Example C49_exact_nonvacuous : exists m m',
  pub_MARGO (cafter ident h0) = Some m /\ margo_from (configuration h0) m /\
  (forall key v k, says (configuration h0) "LITERALS" key v -> is_int_text v k -> Z.abs k < 2 ^ 49) /\
  (forall sat, 1 <= sat <= 24 -> zget (glo_lit_tab m) sat <> Some (-2848)) /\
  pub_MARGO (cafter ident [Init (Parsed zero_ini)]) = Some m' /\ margo_from (configuration [Init (Parsed zero_ini)]) m' /\
  (forall key v k, says (configuration [Init (Parsed zero_ini)]) "LITERALS" key v -> is_int_text v k -> Z.abs k < 2 ^ 49) /\
  zget (glo_lit_tab m') 24 = Some (-2848).
Proof.
  destruct (pub_MARGO (cafter ident h0)) as [m|] eqn:E; [|vm_compute in E; discriminate].
  assert (F : margo_from (configuration h0) m) by (apply (C48_loading ident default_ini ident_walk); exact E).
  destruct (pub_MARGO (cafter ident [Init (Parsed zero_ini)])) as [m'|] eqn:E'; [|vm_compute in E'; discriminate].
  assert (F' : margo_from (configuration [Init (Parsed zero_ini)]) m') by (apply (C48_loading ident zero_ini ident_walk); exact E').
  exists m, m'. split; [reflexivity|]. split; [exact F|]. split; [apply small_channels_ok; vm_compute; reflexivity|].
  split; [|split; [reflexivity|split; [exact F'|split; [apply small_channels_ok; vm_compute; reflexivity|]]]].
  - assert (M : m = {| half_cycle_enable := false; lock_time_enable := false; gps_utc_shift := 18; glo_lit_tab := glo_lit_tab default_margo |})
      by (vm_compute in E; inversion E; reflexivity). subst m. intros sat S.
    assert (X : forallb (fun sat => match zget (glo_lit_tab default_margo) sat with Some k => negb (k =? -2848) | None => true end) (zrange 1 25) = true) by (vm_compute; reflexivity).
    rewrite forallb_forall in X. specialize (X sat (proj2 (zrange_In 1 25 sat) ltac:(lia))). cbn [glo_lit_tab].
    intros Y. rewrite Y in X. discriminate X.
  - vm_compute in E'. inversion E'. reflexivity.
Qed.
