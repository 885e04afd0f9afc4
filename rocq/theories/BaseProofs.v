(** * BaseProofs: the station-message model meets BaseSpec. *)
From Coq Require Import Reals.
From Flocq Require Import Core.
From Verif Require Import PyBase PyDict PyFloat PyVal PyText BitsModel BitsSpec BitsProofs MessageSpec
  ReadProofs CleanProofs FloatProofs EphModel EphSpec EphProofs EphTheorems BaseModel BaseSpec
  TextProofs MsmTheorems.
Local Open Scope string_scope.
Local Open Scope list_scope.
Local Open Scope Z_scope.

Lemma sub_base_some bare buf r : base_decode bare buf = Ok r -> subdecoder_base bare buf = Ok (Some r).
Proof.
  intros H. unfold subdecoder_base. pose proof H as H'. unfold base_decode, base_decode_bare in H'.
  destruct (base_get_msg_num buf); [|discriminate]. cbn [bind]. now rewrite H.
Qed.
Lemma sub_base_inv bare buf r : subdecoder_base bare buf = Ok (Some r) -> base_decode bare buf = Ok r.
Proof.
  unfold subdecoder_base. intros H. destruct (base_get_msg_num buf); cbn [bind] in H; [|discriminate].
  destruct (base_decode bare buf) as [o|e]; [congruence|]. destruct (is_exception e); discriminate.
Qed.

Lemma base_msg_num buf payload crc n : transport_frame buf payload crc -> numbered payload n ->
  base_get_msg_num buf = Ok n.
Proof. intros F (L & E). unfold base_get_msg_num. rewrite <- E. exact (msg_num_payload _ _ _ F L). Qed.

Lemma base_check_ok nexp n : base_length_check nexp nexp n = Ok tt <-> n = 6 + (nexp + 7) / 8.
Proof.
  unfold base_length_check. rewrite Z.eqb_refl. cbn [negb].
  rewrite Z.shiftr_div_pow2 by lia. change (2 ^ 3) with 8.
  destruct (6 + (nexp + 7) / 8 =? n) eqn:E; cbn [negb]; split; intros H; try discriminate; try reflexivity; lia.
Qed.
Lemma base_check_inv nexp ndec n u : base_length_check nexp ndec n = Ok u ->
  ndec = nexp /\ n = 6 + (nexp + 7) / 8.
Proof.
  unfold base_length_check. rewrite Z.shiftr_div_pow2 by lia. change (2 ^ 3) with 8.
  destruct (ndec =? nexp) eqn:E1; [|discriminate]. cbn [negb].
  destruct (6 + (ndec + 7) / 8 =? n) eqn:E; [|discriminate]. intros _. apply Z.eqb_eq in E1. subst. lia.
Qed.

(** ** 1005 / 1006 *)
Definition rp_steps (t : rp_msg) : list read_step :=
  step "msgNum" RU 12 12 :: steps10056 ++
  match t with R1005 => [] | R1006 => [step "height" RU 16 16] end.

Lemma rp_decode_steps buf t : base_get_msg_num buf = Ok (rp_number t) ->
  base_decode_bare buf =
  ('(bs, offset) <- run_steps buf (rp_steps t) (new_base (rp_class t), 24) ;;
   _ <- base_length_check (layout_width (rp_layout t)) (offset - 24) (zlen buf) ;; Ok bs).
Proof.
  intros E. unfold base_decode_bare. rewrite E. cbn [bind].
  assert (D : base_decode_bare buf = decode10056 buf).
  { unfold base_decode_bare. rewrite E. destruct t; reflexivity. }
  unfold base_decode_bare in D. rewrite E in D. cbn [bind] in D. rewrite D. clear D.
  unfold decode10056. unfold base_get_msg_num in E. rewrite E. cbn [bind].
  unfold rp_steps, run_steps. cbn [for_each st_read st_width st_attr st_adv read_bits]. rewrite E.
  cbn [bind]. rewrite for_each_app.
  destruct t; cbn [rp_number rp_class].
  - replace (1005 =? 1005) with true by reflexivity.
    destruct (for_each steps10056 _ _) as [[bs off]|e]; reflexivity.
  - replace (1006 =? 1005) with false by reflexivity.
    change (24 + 12) with 36.
    destruct (for_each steps10056 _ _) as [[bs off]|e]; [|reflexivity].
    cbn [bind for_each st_read st_width st_attr st_adv read_bits].
    replace ("BaseRPH" =? "BaseRPH")%string with true by reflexivity.
    destruct (getbitu buf off 16); reflexivity.
Qed.

Lemma rp_places t : splaced (rp_steps t) 0 = placed (rp_layout t) 0.
Proof. destruct t; vm_compute; reflexivity. Qed.
Lemma rp_advance t : advance (rp_steps t) = layout_width (rp_layout t).
Proof. destruct t; vm_compute; reflexivity. Qed.
Lemma rp_inside t : forallb (place_inside (layout_width (rp_layout t))) (placed (rp_layout t) 0) = true.
Proof. destruct t; vm_compute; reflexivity. Qed.
Lemma rp_width t : (layout_width (rp_layout t) + 7) / 8 = rp_bytes t /\
  layout_width (rp_layout t) <= 8 * rp_bytes t.
Proof. destruct t; vm_compute; split; congruence. Qed.

Definition ints (l : list (string * Z)) : list (string * pyval) := map (fun '(n, v) => (n, VInt v)) l.

Lemma rp_assign t bits :
  assign (new_base (rp_class t)) (ints (fields_of (rp_layout t) bits))
  = {| po_class := rp_class t; po_attrs := ints (fields_of (rp_layout t) bits) |}.
Proof. destruct t; reflexivity. Qed.

Lemma rp_bare_ok buf payload crc t : transport_frame buf payload crc -> numbered payload (rp_number t) ->
  zlen payload = rp_bytes t ->
  base_decode_bare buf =
  Ok {| po_class := rp_class t; po_attrs := ints (fields_of (rp_layout t) (bits_of payload)) |}.
Proof.
  intros F N L. rewrite (rp_decode_steps _ t) by exact (base_msg_num _ _ _ _ F N).
  pose proof (frame_at _ _ _ F) as (_ & _ & LB & BO). destruct (rp_width t) as [W1 W2].
  rewrite run_steps_ok; [|assumption|lia|].
  - cbn [bind]. rewrite rp_advance.
    replace (24 + layout_width (rp_layout t) - 24) with (layout_width (rp_layout t)) by lia.
    rewrite (proj2 (base_check_ok _ _)) by lia. cbn [bind]. f_equal.
    rewrite <- rp_assign. f_equal. unfold ints. f_equal.
    rewrite (splaced_shift _ 0 24), rp_places, <- placed_shift.
    apply (fields_in_payload_gen _ _ crc); [exact F|apply rp_inside|lia].
  - rewrite (splaced_shift _ 0 24), rp_places.
    pose proof (rp_inside t) as LI. rewrite forallb_forall in LI |- *.
    intros x HI. apply in_map_iff in HI. destruct HI as ([[[n ty] o] w] & <- & HI).
    specialize (LI _ HI). unfold place_inside in *. lia.
Qed.

Lemma rp_bare_err buf payload crc t : transport_frame buf payload crc -> numbered payload (rp_number t) ->
  zlen payload <> rp_bytes t -> exists e, base_decode_bare buf = Err e /\ is_exception e = true.
Proof.
  intros F N L. rewrite (rp_decode_steps _ t) by exact (base_msg_num _ _ _ _ F N).
  pose proof (frame_at _ _ _ F) as (_ & _ & LB & BO). destruct (rp_width t) as [W1 W2].
  pose proof (clean_run_steps buf (rp_steps t) (new_base (rp_class t), 24)) as C.
  destruct (run_steps _ _ _) as [[bs off]|e] eqn:E; cbn [bind].
  - destruct (base_length_check (layout_width (rp_layout t)) (off - 24) (zlen buf)) as [u|e] eqn:EC.
    + apply base_check_inv in EC. lia.
    + cbn [bind]. exists e. split; [reflexivity|]. unfold base_length_check in EC.
      destruct (negb _); [inversion EC; reflexivity|]. destruct (negb _); inversion EC; reflexivity.
  - exists e. split; [reflexivity|]. unfold clean in C. destruct e; try reflexivity; tauto.
Qed.

(** Scaling, symbolically in the twelve or thirteen values. *)
Lemma qc_index q : 0 <= q < 4 -> py_index QC_VALUES q = Ok (quarter_cycle q).
Proof.
  intros H. assert (E : q = 0 \/ q = 1 \/ q = 2 \/ q = 3) by lia.
  destruct E as [E|[E|[E|E]]]; subst q; reflexivity.
Qed.

Local Opaque f_mul f_of_int dec_lit.
Lemma rp_scale_1005 a b c d e f g x h y q z : 0 <= q < 4 ->
  scale10056 {| po_class := "BaseRP"; po_attrs := ints
    [("msgNum", a); ("bsID", b); ("ITRF_Year", c); ("GPS_OK", d); ("GLO_OK", e); ("GAL_OK", f);
     ("isVirtual", g); ("refPoint_X", x); ("singleOsc", h); ("refPoint_Y", y); ("QC_bias", q);
     ("refPoint_Z", z)] |} =
  Ok {| po_class := "BaseRP"; po_attrs :=
    [("msgNum", VInt a); ("bsID", VInt b); ("ITRF_Year", VInt c); ("GPS_OK", VBool (d =? 1));
     ("GLO_OK", VBool (e =? 1)); ("GAL_OK", VBool (f =? 1)); ("isVirtual", VBool (g =? 1));
     ("refPoint_X", VFloat (f_mul (f_of_int x) (dec_lit 1 4))); ("singleOsc", VBool (h =? 1));
     ("refPoint_Y", VFloat (f_mul (f_of_int y) (dec_lit 1 4))); ("QC_bias", vstr (quarter_cycle q));
     ("refPoint_Z", VFloat (f_mul (f_of_int z) (dec_lit 1 4)))] |}.
Proof.
  intros Q. unfold scale10056.
  cbn -[Z.eqb py_index QC_VALUES quarter_cycle vstr].
  rewrite (qc_index q Q). cbn -[Z.eqb py_index QC_VALUES quarter_cycle vstr]. reflexivity.
Qed.

Lemma rp_scale_1006 a b c d e f g x h y q z k : 0 <= q < 4 ->
  scale10056 {| po_class := "BaseRPH"; po_attrs := ints
    [("msgNum", a); ("bsID", b); ("ITRF_Year", c); ("GPS_OK", d); ("GLO_OK", e); ("GAL_OK", f);
     ("isVirtual", g); ("refPoint_X", x); ("singleOsc", h); ("refPoint_Y", y); ("QC_bias", q);
     ("refPoint_Z", z); ("height", k)] |} =
  Ok {| po_class := "BaseRPH"; po_attrs :=
    [("msgNum", VInt a); ("bsID", VInt b); ("ITRF_Year", VInt c); ("GPS_OK", VBool (d =? 1));
     ("GLO_OK", VBool (e =? 1)); ("GAL_OK", VBool (f =? 1)); ("isVirtual", VBool (g =? 1));
     ("refPoint_X", VFloat (f_mul (f_of_int x) (dec_lit 1 4))); ("singleOsc", VBool (h =? 1));
     ("refPoint_Y", VFloat (f_mul (f_of_int y) (dec_lit 1 4))); ("QC_bias", vstr (quarter_cycle q));
     ("refPoint_Z", VFloat (f_mul (f_of_int z) (dec_lit 1 4)));
     ("height", VFloat (f_mul (f_of_int k) (dec_lit 1 4)))] |}.
Proof.
  intros Q. unfold scale10056.
  cbn -[Z.eqb py_index QC_VALUES quarter_cycle vstr].
  rewrite (qc_index q Q). cbn -[Z.eqb py_index QC_VALUES quarter_cycle vstr]. reflexivity.
Qed.
Local Transparent f_mul f_of_int dec_lit.

Lemma fv_bound ty w bits : Z.abs (field_value ty (firstn w bits)) < 2 ^ Z.of_nat w.
Proof.
  assert (L : 2 ^ zlen (firstn w bits) <= 2 ^ Z.of_nat w)
    by (apply Z.pow_le_mono_r; [lia|unfold zlen; rewrite firstn_length; lia]).
  destruct ty; cbn [field_value].
  - pose proof (uval_bound (firstn w bits)). lia.
  - destruct (firstn w bits) as [|b r] eqn:E; [cbn; lia|].
    cbn [sval]. pose proof (uval_bound r). rewrite zlen_cons in L.
    rewrite Z.pow_add_r in L by (try apply zlen_nonneg; lia). destruct b; lia.
  - destruct (firstn w bits) as [|b r] eqn:E; [cbn; lia|].
    cbn [smval]. pose proof (uval_bound r). rewrite zlen_cons in L.
    rewrite Z.pow_add_r in L by (try apply zlen_nonneg; lia). destruct b; lia.
Qed.
Lemma fv_u_pos w bits : 0 <= field_value U (firstn w bits).
Proof. cbn [field_value]. apply uval_bound. Qed.

Lemma metres v : Z.abs v < 2 ^ 38 -> reports (Decimal 1 4) v (VFloat (f_mul (f_of_int v) (dec_lit 1 4))).
Proof.
  intros B. change (2 ^ 38) with 274877906944 in B.
  assert (B40 : Z.abs v <= 2 ^ 40) by (change (2 ^ 40) with 1099511627776; lia).
  destruct (dec_reports 1 4 v ltac:(lia) ltac:(lia) ltac:(vm_compute; congruence) ltac:(vm_compute; congruence) B40) as (r & V & E).
  eexists. exists r. split; [reflexivity|]. split; [exact V|exact E].
Qed.

Definition same_fields (l : list (string * Z)) (a : list (string * pyval)) : Prop :=
  Forall2 (fun '(n, v) '(n', p) => n = n' /\ rp_reports n v p) l a.

Lemma rp_scaled_ok buf payload crc t : transport_frame buf payload crc -> numbered payload (rp_number t) ->
  zlen payload = rp_bytes t ->
  exists o, base_decode false buf = Ok o /\ po_class o = rp_class t /\
    same_fields (fields_of (rp_layout t) (bits_of payload)) (po_attrs o).
Proof.
  intros F N L. unfold base_decode. rewrite (rp_bare_ok _ _ _ _ F N L). cbn [bind].
  generalize (bits_of payload). clear F N L. intros bits.
  assert (RP : forall n v p, rp_reports n v p -> n = n /\ rp_reports n v p) by auto.
  destruct t; unfold base_scale; cbn [rp_class po_class rp_layout].
  - replace ("BaseRP" =? "BaseRP")%string with true by reflexivity. cbn [orb].
    unfold layout1005. cbn [fields_of].
    rewrite rp_scale_1005.
    2:{ split; [apply fv_u_pos|].
        match goal with |- field_value ?t (firstn ?w ?b) < _ => pose proof (fv_bound t w b) as B end.
        change (2 ^ Z.of_nat 2) with 4 in B. lia. }
    eexists. split; [reflexivity|]. split; [reflexivity|]. cbn [po_attrs]. unfold same_fields.
    repeat (apply Forall2_cons; [split; [reflexivity|]|]); try apply Forall2_nil;
      try reflexivity; unfold rp_reports; cbn [existsb String.eqb Ascii.eqb Bool.eqb orb];
      apply metres; exact (fv_bound _ 38 _).
  - replace ("BaseRPH" =? "BaseRP")%string with false by reflexivity.
    replace ("BaseRPH" =? "BaseRPH")%string with true by reflexivity. cbn [orb].
    unfold layout1006, layout1005. cbn [app fields_of].
    rewrite rp_scale_1006.
    2:{ split; [apply fv_u_pos|].
        match goal with |- field_value ?t (firstn ?w ?b) < _ => pose proof (fv_bound t w b) as B end.
        change (2 ^ Z.of_nat 2) with 4 in B. lia. }
    eexists. split; [reflexivity|]. split; [reflexivity|]. cbn [po_attrs]. unfold same_fields.
    repeat (apply Forall2_cons; [split; [reflexivity|]|]); try apply Forall2_nil;
      try reflexivity; unfold rp_reports; cbn [existsb String.eqb Ascii.eqb Bool.eqb orb]; apply metres;
      try exact (fv_bound _ 38 _).
    match goal with |- Z.abs (field_value ?t (firstn ?w ?b)) < _ => pose proof (fv_bound t w b) as B end.
    change (2 ^ Z.of_nat 16) with 65536 in B. lia.
Qed.

Lemma rp_decoded_iff bare buf payload crc t : transport_frame buf payload crc ->
  numbered payload (rp_number t) ->
  (exists o, subdecoder_base bare buf = Ok (Some o)) <-> zlen payload = rp_bytes t.
Proof.
  intros F N. split.
  - intros (o & H). destruct (Z.eq_dec (zlen payload) (rp_bytes t)) as [E|E]; [exact E|exfalso].
    apply sub_base_inv in H. unfold base_decode in H.
    destruct (rp_bare_err _ _ _ _ F N E) as (e & X & _). rewrite X in H. discriminate.
  - intros L. destruct bare.
    + eexists. apply sub_base_some. unfold base_decode. rewrite (rp_bare_ok _ _ _ _ F N L). reflexivity.
    + destruct (rp_scaled_ok _ _ _ _ F N L) as (o & E & _). exists o. now apply sub_base_some.
Qed.

(** ** Nothing but a missing message number is raised *)
Lemma clean_getattr o a : clean (getattr o a).
Proof. unfold getattr. destruct (sget _ _); exact Logic.I. Qed.
Lemma clean_times v m k : clean (times_lit v m k).
Proof. destruct v; exact Logic.I. Qed.
Lemma clean_set_flag a o : clean (set_flag a o).
Proof. unfold set_flag. apply clean_bind; [apply clean_getattr|]. intros; exact Logic.I. Qed.
Lemma clean_set_times a m k o : clean (set_times a m k o).
Proof.
  unfold set_times. apply clean_bind; [apply clean_getattr|]. intros v _.
  apply clean_bind; [apply clean_times|]. intros; exact Logic.I.
Qed.
Lemma clean_check a b c : clean (base_length_check a b c).
Proof. unfold base_length_check. clean_tac; exact Logic.I. Qed.
Lemma clean_int16 s : clean (py_int16 s).
Proof.
  unfold py_int16. cbv zeta.
  match goal with |- clean (match ?b with [] => _ | _ => _ end) => destruct b; [exact Logic.I|] end.
  destruct (hex_digits_value _ _); exact Logic.I.
Qed.
Lemma clean_utf8 n : forall b, (length b <= n)%nat -> clean (utf8_decode b).
Proof.
  induction n as [|n IH]; intros b L; (destruct b as [|a b]; [exact Logic.I|cbn [length] in L]); [lia|].
  cbn [utf8_decode].
  assert (K : forall l x, (length l <= n)%nat -> clean (s <- utf8_decode l ;; Ok (x :: s))).
  { intros l x Hl. apply clean_bind; [now apply IH|]. intros; exact Logic.I. }
  repeat match goal with
  | |- clean (if ?c then _ else _) => destruct c
  | |- clean (match ?l with [] => _ | _ => _ end) => destruct l; cbn [length] in L
  | |- clean (Err _) => exact Logic.I
  | |- clean (bind _ _) => apply clean_bind; [apply IH; lia|intros; exact Logic.I]
  end.
Qed.
Lemma clean_set_text a o : clean (set_text a o).
Proof.
  unfold set_text. apply clean_bind; [apply clean_getattr|]. intros v _.
  apply clean_bind; [|intros; exact Logic.I]. unfold text_of. destruct v; try exact Logic.I.
  apply clean_bind; [apply clean_map_res; apply clean_int16|]. intros c _.
  apply clean_bind; [unfold py_bytes; destruct (forallb _ _); exact Logic.I|]. intros b _.
  apply clean_bind; [now apply (clean_utf8 (length b))|]. intros; exact Logic.I.
Qed.
Lemma clean_read_text buf n off : clean (read_text buf n off).
Proof.
  unfold read_text. apply clean_bind; [|intros [? ?] _; exact Logic.I]. apply clean_for_each.
  intros [? ?] x _. apply clean_bind; [apply clean_getbitu|]. intros; exact Logic.I.
Qed.
Lemma clean_read_counted buf a b o off : clean (read_counted buf a b o off).
Proof.
  unfold read_counted. apply clean_bind; [apply clean_getbitu|]. intros n _.
  apply clean_bind; [apply clean_read_text|]. intros [? ?] _. exact Logic.I.
Qed.

Ltac base_clean := repeat first
  [ exact Logic.I
  | apply clean_getbitu | apply clean_getbits | apply clean_run_steps | apply clean_check
  | apply clean_read_counted | apply clean_set_text | apply clean_set_flag | apply clean_set_times
  | apply clean_getattr | apply clean_py_index | apply clean_times
  | match goal with
    | |- clean (bind _ _) => apply clean_bind; [|intros ? _]
    | |- clean (map_res _ _) => apply clean_map_res; intros ?
    | |- clean (for_each _ _ _) => apply clean_for_each; intros ? ? _
    | |- clean ((let (_, _) := ?x in _) _) => destruct x
    | |- clean (if ?b then _ else _) => destruct b
    | |- clean (match ?x with _ => _ end) => destruct x
    | |- clean (let _ := _ in _) => cbv zeta
    end ].

Lemma clean_10056 buf : clean (decode10056 buf).
Proof. unfold decode10056. base_clean. Qed.
Lemma clean_10078 buf : clean (decode10078_1033 buf).
Proof. unfold decode10078_1033. base_clean. Qed.
Lemma clean_1013 buf : clean (decode1013 buf).
Proof. unfold decode1013. base_clean. Qed.
Lemma clean_1029 buf : clean (decode1029 buf).
Proof. unfold decode1029. base_clean. Qed.
Lemma clean_1230 buf : clean (decode1230 buf).
Proof. unfold decode1230. base_clean. Qed.
Lemma clean_base_bare buf : clean (base_decode_bare buf).
Proof.
  unfold base_decode_bare. apply clean_bind; [apply clean_getbitu|]. intros n _.
  repeat match goal with |- clean (if ?b then _ else _) => destruct b end;
    first [apply clean_10056|apply clean_10078|apply clean_1013|apply clean_1029|apply clean_1230|exact Logic.I].
Qed.
Lemma clean_base_scale o : clean (base_scale o).
Proof.
  unfold base_scale, scale10056, scale10078_1033, scale1013, scale1029, scale1230, base_copy. base_clean.
Qed.

Lemma sub_base_cases bare buf n : base_get_msg_num buf = Ok n ->
  (exists o, subdecoder_base bare buf = Ok (Some o)) \/ subdecoder_base bare buf = Ok None.
Proof.
  intros E. unfold subdecoder_base. rewrite E. cbn [bind].
  assert (C : clean (base_decode bare buf)).
  { unfold base_decode. apply clean_bind; [apply clean_base_bare|]. intros o _.
    destruct bare; [exact Logic.I|apply clean_base_scale]. }
  destruct (base_decode bare buf) as [o|e]; [left; eauto|].
  unfold clean in C. destruct e; cbn; auto; tauto.
Qed.
