(** * MargoUnits: accuracy of phases in cycles and Doppler in Hz. *)
From Coq Require Import Ascii Reals Psatz Lia.
From Flocq Require Import Core BinarySingleNaN.
From Verif Require Import PyBase PyDict PyFloat BitsProofs MsmModel MsmSpec MsmScaleSpec FloatProofs MargoModel MargoSpec MargoProofs.
Local Open Scope string_scope.
Local Open Scope list_scope.
Local Open Scope Z_scope.

(** Carrier frequency in Hz (exact integers). *)
Definition nominal_hz (g : gnss) (sgn : string) : Z :=
  match sgn with
  | String band _ => fst (band_mhz g band) * 10 ^ (6 - snd (band_mhz g band))
  | EmptyString => 0
  end.
Definition carrier_hz (ctl : margo_controls) (g : gnss) (sgn : string) (sat : Z) : Z :=
  match g with
  | GLO => nominal_hz g sgn +
           glo_channel ctl sat * match sgn with String "1" _ => 562500 | _ => 437500 end
  | _ => nominal_hz g sgn
  end.
Definition light_speed : Z := 299792458.

(** The wave length times the carrier is the speed of light up to a factor 1 +- 2^-51; the wave
    length is above 1/9 m. *)
Definition wave_close (w : flt) (hz : Z) : bool :=
  match w with
  | S754_finite false m e =>
      (e <? 0) && (-200 <? e) && (Z.abs (Zpos m * hz - light_speed * 2 ^ (- e)) * 2 ^ 51 <=? light_speed * 2 ^ (- e))
      && valid_binary fprec femax w && (2 ^ (- e) <? 9 * Zpos m)
  | _ => false
  end.

Lemma wave_close_ok ctl g sgn sat : controls_ok ctl -> In sgn (map snd (signal_codes g)) -> 1 <= sat <= slots g ->
  wave_close (wave ctl g sgn sat) (carrier_hz ctl g sgn sat) = true.
Proof.
  intros C S R. unfold wave, sat_carrier, carrier_hz.
  destruct g.
  2: { pose proof (controls_lit ctl sat C R) as (_ & B). set (k := glo_channel ctl sat) in *. clearbody k.
    assert (G : forallb (fun c => forallb (fun k => wave_close (f_div (f_mul (dec_lit 299792458 3) (dec_lit 1 3))
         (f_add (carrier GLO c) (f_mul (match c with String "1" _ => dec_lit 5625 4 | _ => dec_lit 4375 4 end) (f_of_int k))))
         (nominal_hz GLO c + k * match c with String "1" _ => 562500 | _ => 437500 end)) (zrange (-1000) 1001))
       (map snd (signal_codes GLO)) = true) by (vm_compute; reflexivity).
    rewrite forallb_forall in G. specialize (G sgn S). rewrite forallb_forall in G.
    apply (G k). apply zrange_In. lia. }
  all: match goal with |- context [carrier ?g _] =>
    assert (G : forallb (fun c => wave_close (f_div (f_mul (dec_lit 299792458 3) (dec_lit 1 3)) (carrier g c)) (nominal_hz g c))
      (map snd (signal_codes g)) = true) by (vm_compute; reflexivity) end;
    rewrite forallb_forall in G; exact (G sgn S).
Qed.

Lemma Rabs_le_scale a b x : (0 < x)%R -> (Rabs (a * x) <= b * x)%R -> (Rabs a <= b)%R.
Proof. intros X H. rewrite Rabs_mult, (Rabs_pos_eq x) in H by lra. now apply Rmult_le_reg_r with x. Qed.

Lemma wave_close_R w hz : wave_close w hz = true -> exists W, is_val w W /\ (/ 9 < W)%R /\
  (Rabs (W * IZR hz - IZR light_speed) <= IZR light_speed * bpow radix2 (-51))%R.
Proof.
  intros H. destruct w as [s|s| |[] m e]; try discriminate H. unfold wave_close in H.
  apply andb_prop in H. destruct H as (H & H5). apply andb_prop in H. destruct H as (H & H4).
  apply andb_prop in H. destruct H as (H & H3). apply andb_prop in H. destruct H as (H1 & H2).
  apply Z.ltb_lt in H1, H2, H5. apply Z.leb_le in H3.
  exists (SF2R radix2 (S754_finite false m e)). split; [split; [exact H4|]; split; reflexivity|].
  cbn [SF2R cond_Zopp]. unfold F2R. cbn [Fnum Fexp].
  assert (B : IZR (2 ^ (- e)) = bpow radix2 (- e)) by (apply (IZR_Zpower radix2); lia).
  assert (P : (0 < bpow radix2 (- e))%R) by apply bpow_gt_0.
  assert (PE : (bpow radix2 e * bpow radix2 (- e) = 1)%R).
  { rewrite <- bpow_plus. replace (e + - e) with 0 by lia. reflexivity. }
  assert (P0 : (0 < bpow radix2 e)%R) by apply bpow_gt_0.
  split.
  - apply IZR_lt in H5. rewrite B, mult_IZR in H5.
    apply Rmult_lt_reg_r with (bpow radix2 (- e)); [exact P|]. rewrite Rmult_assoc, PE. lra.
  - apply Rabs_le_scale with (bpow radix2 (- e)); [exact P|].
    replace ((IZR (Z.pos m) * bpow radix2 e * IZR hz - IZR light_speed) * bpow radix2 (- e))%R
      with (IZR (Z.pos m) * IZR hz * (bpow radix2 e * bpow radix2 (- e)) - IZR light_speed * bpow radix2 (- e))%R by ring.
    rewrite PE, Rmult_1_r, <- B, <- !mult_IZR, <- minus_IZR, <- abs_IZR.
    apply IZR_le in H3. rewrite mult_IZR in H3.
    assert (Q : IZR (2 ^ 51) = bpow radix2 51) by (apply (IZR_Zpower radix2); lia). rewrite Q in H3.
    assert (Q2 : (bpow radix2 51 * bpow radix2 (-51) = 1)%R) by (rewrite <- bpow_plus; reflexivity).
    assert (Q3 : (0 < bpow radix2 (-51))%R) by apply bpow_gt_0.
    apply Rmult_le_compat_r with (r := bpow radix2 (-51)) in H3; [|lra].
    rewrite Rmult_assoc, Q2, Rmult_1_r in H3. rewrite mult_IZR in H3. lra.
Qed.

(** Quotient by a wave length: relative accuracy. *)
Lemma units_error v r k w hz : is_val v r -> (Rabs r < bpow radix2 k)%R -> -900 <= k <= 900 -> wave_close w hz = true ->
  is_finite_SF (f_div v w) = true /\
  (Rabs (SF2R radix2 (f_div v w) - r * IZR hz / IZR light_speed) <= bpow radix2 (k - 47))%R.
Proof.
  intros V B K C. destruct (wave_close_R w hz C) as (W & HW & LB & E).
  assert (NW : (W <> 0)%R) by lra. assert (PC : (0 < IZR light_speed)%R) by (unfold light_speed; lra).
  assert (M9 : (Rabs (r / W) <= 9 * bpow radix2 k)%R).
  { unfold Rdiv. rewrite Rabs_mult, Rabs_inv, (Rabs_pos_eq W) by lra.
    assert (IW : (/ W < 9)%R). { apply Rmult_lt_reg_l with W; [lra|]. rewrite Rinv_r by exact NW. lra. }
    assert (0 < / W)%R by (apply Rinv_0_lt_compat; lra). pose proof (Rabs_pos r). nra. }
  assert (M : (Rabs (r / W) < bpow radix2 (k + 4))%R).
  { rewrite bpow_plus. change (bpow radix2 4) with 16%R. pose proof (bpow_gt_0 radix2 k). lra. }
  destruct (rnd_error (r / W) (k + 4) ltac:(lia) M) as (RE & SM).
  destruct (div_val v w r W V HW NW SM) as (_ & F & X). split; [exact F|]. rewrite X.
  replace (rnd (r / W) - r * IZR hz / IZR light_speed)%R
    with ((rnd (r / W) - r / W) + (r / W) * ((IZR light_speed - W * IZR hz) / IZR light_speed))%R by (field; split; lra).
  eapply Rle_trans; [apply Rabs_triang|].
  assert (T : (Rabs ((IZR light_speed - W * IZR hz) / IZR light_speed) <= bpow radix2 (-51))%R).
  { apply Rabs_le_scale with (IZR light_speed); [exact PC|].
    replace ((IZR light_speed - W * IZR hz) / IZR light_speed * IZR light_speed)%R with (- (W * IZR hz - IZR light_speed))%R by (field; lra).
    rewrite Rabs_Ropp. lra. }
  apply Rle_trans with (bpow radix2 (k - 50) + 9 * bpow radix2 k * bpow radix2 (-51))%R.
  { apply Rplus_le_compat; [replace (k - 50) with (k + 4 - 54) by lia; exact RE|].
    rewrite Rabs_mult. apply Rmult_le_compat; [apply Rabs_pos|apply Rabs_pos|lra|exact T]. }
  replace (k - 50) with (k + -51 + 1) by lia. replace (k - 47) with (k + -51 + 4) by lia.
  rewrite !bpow_plus. change (bpow radix2 1) with 2%R. change (bpow radix2 4) with 16%R.
  pose proof (Rmult_le_pos _ _ (bpow_ge_0 radix2 k) (bpow_ge_0 radix2 (-51))). lra.
Qed.

Lemma neg_val x r : is_val x r -> is_val (f_neg x) (- r).
Proof.
  intros (V & F & E). destruct x as [s|s| |s m e]; try discriminate F; unfold f_neg, SFopp.
  - split; [reflexivity|]. split; [reflexivity|]. cbn in *. lra.
  - split; [exact V|]. split; [reflexivity|]. rewrite <- E. cbn [SF2R]. rewrite <- F2R_Zopp. f_equal. f_equal. now destruct s.
Qed.
