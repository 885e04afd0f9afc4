(** * DocumentsProofs: from transmitted messages to elements of JSON files. *)
From Coq Require Import String Reals Psatz Lia.
From Flocq Require Import Core BinarySingleNaN.
From Verif Require Import PyBase PyDict PyFloat PyVal PyFormat PyJson JsonSpec FloatProofs BitsSpec BitsProofs MessageSpec DecoderModel DecoderSpec DecoderProofs PropertiesDecoder
  EphModel BaseModel EphSpec EphProofs EphTheorems BaseSpec BaseProofs BaseTextProofs BaseSchedProofs PropertiesBase
  MsmModel MsmSpec MsmScaleSpec MsmConvert MsmConverse MsmScaleTheorems MsmTheorems MsmRange PropertiesMsmScaled
  JsonModel JsonFileSpec JsonFields JsonDecoded PropertiesJsonFields FramerSpec FramerProofs PrinterSpec MainSpec MainProofs TransmissionSpec TransmissionProofs DocumentsSpec.
Local Open Scope string_scope.
Local Open Scope list_scope.
Local Open Scope Z_scope.

(** ** Dispatching *)
Lemma clash {V W} (d : list (Z * V)) (d' : list (Z * W)) n v w :
  forallb (fun p => negb (existsb (Z.eqb (fst p)) (map fst d'))) d = true -> zget d n = Some v -> zget d' n = Some w -> False.
Proof.
  intros H A B. apply zget_in in A, B. rewrite forallb_forall in H. specialize (H _ A). cbn [fst] in H.
  assert (existsb (Z.eqb n) (map fst d') = true) as X; [|rewrite X in H; discriminate].
  apply existsb_exists. exists n. split; [|apply Z.eqb_refl]. change n with (fst (n, w)). now apply in_map.
Qed.
Lemma one_claims bare io io' n c c' : standard bare io -> standard bare io' -> claims io n c -> claims io' n c' -> io' = io.
Proof.
  intros S S' (A & _) (B & _).
  destruct S as [<-|[<-|[<-|[<-|[]]]]], S' as [<-|[<-|[<-|[<-|[]]]]]; try reflexivity;
    exfalso; refine (clash _ _ _ _ _ _ A B); destruct bare; vm_compute; reflexivity.
Qed.
Lemma force_mode mode io : mode <> "MARGO" -> standard (is_bare mode) io -> in_force (map Register (decoders_of mode)) io.
Proof.
  intros M S. unfold decoders_of. destruct (String.eqb_spec mode "MARGO") as [|_]; [contradiction|]. set (b := is_bare mode) in *. clearbody b.
  destruct S as [<-|[<-|[<-|[<-|[]]]]].
  - apply (force_first []); [|split; discriminate]. intros io' [<-|[<-|[<-|[]]]]; discriminate.
  - apply (force_first [sub_msm4567 b]); [|split; discriminate]. intros io' [<-|[<-|[]]]; discriminate.
  - apply (force_first [sub_msm4567 b; sub_msm123 b]); [|split; discriminate]. intros io' [<-|[]]; discriminate.
  - apply (force_first [sub_msm4567 b; sub_msm123 b; sub_eph b]); [|split; discriminate]. intros io' [].
Qed.
Lemma instance_self o : isinstance (Some o) (class_of o) = true.
Proof.
  unfold isinstance. assert (I : In (class_of o) (superclasses (class_of o))).
  { unfold superclasses. repeat match goal with |- context [String.eqb ?a ?b] => destruct (String.eqb_spec a b) as [->|_] end; now left. }
  apply existsb_exists. exists (class_of o). split; [exact I|apply String.eqb_refl].
Qed.
Lemma served_answer mode f n io g o : mode <> "MARGO" -> bytes_ok f -> standard (is_bare mode) io -> has_number f n ->
  claims io n (class_of o) -> sd_decode io = Some g -> g f = Ok (Some o) -> answer (map Register (decoders_of mode)) f = Ok (Some o).
Proof.
  intros M B S N C D R. refine (C12_no_loss _ f io n _ g o B (force_mode mode io M S) N C _ D R (instance_self o)).
  intros io' cls' I' C'. apply force_registered in I'. apply (mode_standard mode) in I'. exact (one_claims _ _ _ _ _ _ S I' C C').
Qed.

(** ** Numbers *)
Lemma frame_number f payload crc n : transport_frame f payload crc -> 2 <= zlen payload -> uval (firstn 12 (bits_of payload)) = n -> has_number f n.
Proof.
  intros (-> & _) L E. unfold has_number, frame_of. rewrite !bits_of_app. set (h := bits_of [0xD3; zlen payload / 256; zlen payload mod 256]).
  assert (LH : length h = 24%nat) by reflexivity. assert (LP : (12 <= length (bits_of payload))%nat) by (rewrite length_bits_of; unfold zlen in L; lia). split.
  - rewrite !app_length, LH. lia.
  - rewrite skipn_app, <- LH, skipn_all, Nat.sub_diag. cbn [skipn app]. rewrite firstn_app.
    replace (12 - length (bits_of payload))%nat with 0%nat by lia. rewrite firstn_O, app_nil_r. now symmetry.
Qed.
Lemma transport_bytes f payload crc : transport_frame f payload crc -> bytes_ok f.
Proof. intros TF. destruct (ReadProofs.frame_at _ _ _ TF) as (_ & _ & _ & B). exact B. Qed.

Lemma base_answer mode f n o : mode <> "MARGO" -> bytes_ok f -> has_number f n -> In n [1005; 1006; 1007; 1008; 1033; 1013; 1029; 1230] ->
  subdecoder_base (is_bare mode) f = Ok (Some o) -> answer (map Register (decoders_of mode)) f = Ok (Some (OPy o)).
Proof.
  intros M B N I D. refine (served_answer mode f n (sub_base (is_bare mode)) _ (OPy o) M B _ N _ eq_refl _).
  - do 3 right. now left.
  - cbn [class_of]. rewrite (class_base _ f n o (number_getbitu _ _ B N) D).
    repeat (destruct I as [<-|I]; [split; [reflexivity|vm_compute; tauto]|]). destruct I.
  - cbv beta. unfold wrap_py. now rewrite D.
Qed.
Lemma eph_answer mode f t o : mode <> "MARGO" -> bytes_ok f -> has_number f (eph_number t) ->
  subdecoder_eph (is_bare mode) f = Ok (Some o) -> answer (map Register (decoders_of mode)) f = Ok (Some (OPy o)).
Proof.
  intros M B N D. refine (served_answer mode f _ (sub_eph (is_bare mode)) _ (OPy o) M B _ N _ eq_refl _).
  - do 2 right. now left.
  - destruct (eph_good f B (is_bare mode) _ o (number_getbitu _ _ B N) D) as ((C & _) & _). cbn [class_of]. rewrite C. destruct t; (split; [reflexivity|vm_compute; tauto]).
  - cbv beta. unfold wrap_py. now rewrite D.
Qed.
Lemma msm_object mode f g t r : mode <> "MARGO" -> bytes_ok f -> has_number f (msm_number g t) ->
  decode_msm17 (is_bare mode) f = Ok (Some r) -> DecoderSpec.announced (is_bare mode) (msm_number g t) = Some (class_of (OMsm r)) ->
  answer (map Register (decoders_of mode)) f = Ok (Some (OMsm r)).
Proof.
  intros M B N D C. destruct (announced_std _ _ _ C) as (io & S & Cl).
  assert (exists g', sd_decode io = Some g' /\ g' f = Ok (Some (OMsm r))) as (g' & G & R).
  { destruct S as [<-|[<-|[<-|[<-|[]]]]].
    - eexists. split; [reflexivity|]. cbv beta. unfold wrap_msm. now rewrite D.
    - eexists. split; [reflexivity|]. cbv beta. unfold wrap_msm. now rewrite D.
    - exfalso. destruct Cl as (Q & _). destruct g, t; vm_compute in Q; discriminate Q.
    - exfalso. destruct Cl as (Q & _). destruct g, t; vm_compute in Q; discriminate Q. }
  exact (served_answer mode f _ io g' _ M B S N Cl G R).
Qed.

(** ** What the elements show *)
Lemma eph_element ctl bare f payload crc t : t <> E1044 -> transport_frame f payload crc -> announces payload t -> eph_bytes t <= zlen payload ->
  exists o, subdecoder_eph bare f = Ok (Some o) /\ shows_element ctl bare (MEph t payload) (json_of ctl (OPy o)).
Proof.
  intros NT F A L. destruct (C40_ephemeris_partial ctl bare f payload crc t NT F A L) as (o & D & H). exists o. split; [exact D|].
  intros n z I K. apply H; [exact I|]. intros J. destruct t; try destruct J. 
  - subst n. now apply (proj1 (K eq_refl)).
  - destruct H0 as [<-|[]]. now apply (proj2 (K eq_refl)).
Qed.

Lemma bare_epoch m : bare_time (bare_of m) = epoch_time m.
Proof.
  unfold bare_time, epoch_time. assert (A : bare_atr (bare_of m) = attributes_of m) by (unfold bare_of; destruct (m_type m); reflexivity).
  assert (H : h_time (bare_header (bare_of m)) = m_epoch m) by (unfold bare_of; destruct (m_type m); reflexivity).
  rewrite A, H. destruct (m_gnss m) eqn:G; unfold attributes_of; rewrite G; cbn [a_gnss gnss_letter String.eqb Ascii.eqb Bool.eqb]; try reflexivity.
  change 0x7FFFFFF with (Z.ones 27). now rewrite Z.land_ones by lia.
Qed.
Lemma bare_headers ctl m : shows_headers ctl true m (json_of ctl (OMsm (MsmBare (bare_of m)))).
Proof.
  assert (A : bare_atr (bare_of m) = attributes_of m) by (unfold bare_of; destruct (m_type m); reflexivity).
  assert (H : bare_header (bare_of m) = bare_header_of m) by (unfold bare_of; destruct (m_type m); reflexivity).
  unfold shows_headers. cbv zeta. rewrite <- bare_epoch. unfold json_of. cbn [shown]. unfold bare_dict. cbn [jpath]. rewrite jget_top, A, H.
  rewrite (jget_named _ "hdr"), (jget_named _ "aux"). unfold part. split; [eexists; reflexivity|]. split.
  - destruct (enable_hdr_data ctl) eqn:E; [|destruct (enable_aux_data ctl); reflexivity].
    exists (jv_of (named (bare_hdr_slots (bare_header_of m)))). split; [destruct (enable_aux_data ctl); reflexivity|].
    intros n z I. rewrite jget_named. unfold header_fields in I. cbn [In] in I.
    repeat (destruct I as [I|I]; [apply pair_equal_spec in I as (<- & <-); reflexivity|]). destruct I.
  - destruct (enable_aux_data ctl) eqn:E; [|destruct (enable_hdr_data ctl); reflexivity].
    exists (jv_of (named (atr_slots (attributes_of m)))). split; [destruct (enable_hdr_data ctl); reflexivity|].
    unfold shows_aux. rewrite (jget_named _ "gnss"), (jget_named _ "subset"), (jget_named _ "msg_number"). repeat split.
Qed.
Lemma bare_shown ctl m : shows_msm ctl true m (json_of ctl (OMsm (MsmBare (bare_of m)))).
Proof.
  unfold shows_msm. split; [apply bare_headers|]. split; intros name get I; rewrite <- bare_epoch, <- map_map; apply C40_bare_observations;
    unfold bare_of; destruct (m_type m); cbn in I |- *;
    repeat (destruct I as [I|I]; [injection I as <- <-; tauto|]); destruct I.
Qed.

Lemma is_real_map (r : option R) (x : option flt) :
  match x, r with
  | None, None => True
  | Some x, Some r => is_finite_SF x = true /\ (Rabs (SF2R radix2 x - r) <= / 10000000)%R
  | _, _ => False
  end -> is_real r (option_map JReal x).
Proof. destruct x as [x|], r as [r|]; cbn; try easy. intros (F & E). exists x. auto. Qed.

Definition mhz_near (w : flt) (hz : Z) : bool :=
  match w with S754_finite false m e => (e <? 0) && (Z.abs (Z.pos m * 1000000 - hz * 2 ^ (- e)) * 10 <=? 2 ^ (- e)) | _ => false end.
Lemma mhz_near_ok w hz : mhz_near w hz = true -> is_finite_SF w = true /\ (Rabs (SF2R radix2 w - IZR hz / 1000000) <= / 10000000)%R.
Proof.
  intros H. destruct w as [s|s| |[] m e]; try discriminate H. unfold mhz_near in H. apply andb_prop in H as (H1 & B).
  apply Z.ltb_lt in H1. apply Z.leb_le in B. split; [reflexivity|]. cbn [SF2R cond_Zopp]. unfold F2R. cbn [Fnum Fexp].
  assert (P : (bpow radix2 e = / IZR (2 ^ (- e)))%R).
  { replace e with (- (- e))%Z at 1 by lia. rewrite bpow_opp. f_equal. symmetry. apply (IZR_Zpower radix2). lia. }
  assert (Q : (0 < IZR (2 ^ (- e)))%R) by (apply IZR_lt; apply Z.pow_pos_nonneg; lia).
  apply IZR_le in B. rewrite mult_IZR, abs_IZR, minus_IZR, !mult_IZR in B. rewrite P. set (q := IZR (2 ^ (- e))) in *. clearbody q.
  replace (IZR (Z.pos m) * / q - IZR hz / 1000000)%R with ((IZR (Z.pos m) * 1000000 - IZR hz * q) * (/ q * / 1000000))%R by (field; lra).
  assert (0 < / q)%R by (apply Rinv_0_lt_compat; lra). assert (0 < / q * / 1000000)%R by (apply Rmult_lt_0_compat; lra).
  rewrite Rabs_mult, (Rabs_pos_eq (/ q * / 1000000)) by lra.
  apply Rle_trans with (q / 10 * (/ q * / 1000000))%R; [apply Rmult_le_compat_r; lra|]. right. field. lra.
Qed.
Lemma nominal_near g sgn : MargoFiles.known g sgn -> is_finite_SF (carrier g sgn) = true /\ (Rabs (SF2R radix2 (carrier g sgn) - IZR (band_hz g sgn) / 1000000) <= / 10000000)%R.
Proof.
  intros K. apply mhz_near_ok. assert (G : forallb (fun g => forallb (fun c => mhz_near (carrier g c) (band_hz g c)) (map snd (signal_codes g)))
    [GPS; GLO; GAL; SBAS; QZSS; BDS; NAVIC] = true) by (vm_compute; reflexivity).
  rewrite forallb_forall in G. specialize (G g ltac:(destruct g; cbn; tauto)). rewrite forallb_forall in G. exact (G sgn K).
Qed.
Lemma signal_dict g sigs codes sgn : codes_of g sigs = Some codes ->
  sget (map (fun c => (c, carrier g c)) codes) sgn =
  if existsb (fun k => match signal_code g k with Some c => String.eqb c sgn | None => false end) sigs then Some (carrier g sgn) else None.
Proof.
  revert codes. induction sigs as [|k r IH]; intros codes E; cbn [codes_of] in E; [injection E as <-; reflexivity|].
  destruct (signal_code g k) as [c|] eqn:K; [|discriminate]. destruct (codes_of g r) as [l|]; [|discriminate]. injection E as <-.
  cbn [existsb]. rewrite K. unfold sget in *. cbn [map dget]. destruct (String.eqb sgn c) eqn:Q.
  - apply String.eqb_eq in Q. subst c. now rewrite String.eqb_refl.
  - rewrite String.eqb_sym, Q. cbn [orb]. now apply IH.
Qed.
Lemma scaled_headers ctl m codes : codes_of (m_gnss m) (m_sigs m) = Some codes ->
  shows_headers ctl false m (json_of ctl (OMsm (MsmScaled (scaled_of m codes)))).
Proof.
  intros EC. unfold shows_headers. cbv zeta. unfold json_of. cbn [shown]. unfold observables_dict. cbv zeta.
  change (d_time (ob_hdr (scaled_of m codes)) + d_day (ob_hdr (scaled_of m codes)) * 86400000) with (epoch_time m + epoch_day m * 86400000).
  cbn [jpath]. rewrite jget_top. rewrite (jget_named _ "hdr"), (jget_named _ "aux"). unfold part. split; [eexists; reflexivity|]. split.
  - destruct (enable_hdr_data ctl) eqn:E; [|destruct (enable_aux_data ctl); reflexivity].
    exists (jv_of (named (hdr_slots (scaled_hdr m codes)))). split; [destruct (enable_aux_data ctl); reflexivity|].
    unfold shows_header. split; [rewrite jget_named; reflexivity|]. split; [rewrite jget_named; reflexivity|].
    split; [rewrite jget_named; cbn; unfold JsonModel.ints; cbn [jv_of]; now rewrite !map_map|].
    intros sgn. cbn [jpath]. rewrite (jget_named _ "signals").
    change (sget (hdr_slots (scaled_hdr m codes)) "signals") with (Some (named (map (fun '(s, f) => (s, VFloat f)) (map (fun c => (c, carrier (m_gnss m) c)) codes)))).
    cbn [option_map]. rewrite (jget_named _ sgn).
    assert (X : forall d : list (string * flt), sget (map (fun '(s, f) => (s, VFloat f)) d) sgn = option_map VFloat (sget d sgn)).
    { unfold sget. induction d as [|[s' f] d IH]; [reflexivity|]. cbn [map dget]. destruct (String.eqb sgn s'); [reflexivity|exact IH]. }
    rewrite X, (signal_dict _ _ _ _ EC). unfold sends_signal. destruct (existsb _ (m_sigs m)) eqn:Q; [|reflexivity].
    apply existsb_exists in Q. destruct Q as (k & _ & Q). destruct (signal_code (m_gnss m) k) as [c|] eqn:K; [|discriminate]. apply String.eqb_eq in Q. subst c.
    exists (carrier (m_gnss m) sgn). split; [reflexivity|]. apply nominal_near. apply signal_code_In in K. exact (in_map snd _ _ K).
  - destruct (enable_aux_data ctl) eqn:E; [|destruct (enable_hdr_data ctl); reflexivity].
    exists (jv_of (named (aux_slots (scaled_aux m)))). split; [destruct (enable_hdr_data ctl); reflexivity|].
    unfold shows_aux. rewrite (jget_named _ "rs_id"), (jget_named _ "MMB"), (jget_named _ "IODS"). split; [reflexivity|]. split; [reflexivity|]. split; [reflexivity|].
    intros n z t I. unfold coded_fields in I. cbn [In] in I. cbn [jpath]. rewrite (jget_named _ n).
    repeat (destruct I as [I|I]; [apply pair_equal_spec in I as (I & <-); apply pair_equal_spec in I as (<- & <-);
      match goal with |- context [sget (aux_slots ?x) ?n] => let y := eval cbn [aux_slots scaled_aux sget dget String.eqb Ascii.eqb Bool.eqb] in (sget (aux_slots x) n) in change (sget (aux_slots x) n) with y end;
      cbn [option_map]; unfold coded; cbn [fst snd]; rewrite (jget_named _ "code"), (jget_named _ "val"); split; reflexivity|]). destruct I.
Qed.
Lemma scaled_shown ctl m codes : msm_ok m -> codes_of (m_gnss m) (m_sigs m) = Some codes ->
  shows_msm ctl false m (json_of ctl (OMsm (MsmScaled (scaled_of m codes)))).
Proof.
  intros OK EC. unfold shows_msm. split; [now apply scaled_headers|]. intros sgn sat. cbv zeta.
  destruct (C40_observations ctl (scaled_of m codes) sgn sat) as (A1 & A2 & A3 & A4 & A5 & A6). cbv zeta in *.
  cbn [scaled_of ob_hdr scaled_hdr d_time d_day ob_obs scaled_obs o_rng o_phs o_dpl o_c2n o_ltm o_hca] in A1, A2, A3, A4, A5, A6.
  rewrite A1, A2, A3, A4, A5, A6. clear A1 A2 A3 A4 A5 A6.
  assert (LC : forall (V : Type) (val : sat_data -> list (option cell_data) -> cell_data -> option V),
    entry (table val codes (m_rows m)) sgn sat = match cell m sgn sat with Some (b, s, c) => val s b c | None => None end)
    by (intros V val; exact (lookup_cell m codes val sgn sat OK EC)).
  rewrite !LC. unfold of_sent. set (t := m_type m). destruct (cell m sgn sat) as [[[b s] c]|] eqn:CE; [|repeat split].
  destruct (cell_inv m sgn sat b s c OK CE) as (_ & SF & CF & _). fold t in SF, CF.
  assert (PB : match rep_phs t s b c with Some _ => true | None => false end = has_phase_value t b s c).
  { unfold has_phase_value. destruct (rep_phs t s b c) eqn:E.
    - destruct (_ && negb (blocked _ b c)) eqn:Q; [reflexivity|]. apply blocked_phase in Q. congruence.
    - apply blocked_phase in E. now rewrite E. }
  split; [|split; [|split; [|split; [|split]]]].
  - apply is_real_map. unfold rep_rng, pseudorange. destruct (code_range t s c) as [x|] eqn:E.
    + destruct (has_range t && rough_known t s && negb (range_invalid t c)) eqn:Q; [|apply code_sent in Q; congruence].
      destruct (code_range_accurate t s c x SF CF E) as (r & (_ & F & V) & B). split; [exact F|]. rewrite V.
      rewrite metres_same, rough_same in B. unfold code_resolution in B.
      replace (IZR (cd_rng c) / 2 ^ (if extended t then 29 else 24))%R with (IZR (cd_rng c) * (if extended t then / 2 ^ 29 else / 2 ^ 24))%R by (destruct (extended t); reflexivity).
      lra.
    + apply code_sent in E. now rewrite E.
  - apply is_real_map. unfold phaserange. rewrite <- PB. destruct (rep_phs t s b c) as [x|] eqn:E; [|exact Logic.I].
    unfold rep_phs in E. destruct (blocked t b c); [discriminate|]. destruct (phase_val t s c x SF CF E) as ((_ & F & V) & _ & B). split; [exact F|]. lra.
  - apply is_real_map. unfold rep_dpl, rate. destruct (phase_rate t s c) as [x|] eqn:E.
    + destruct (rate_val t s c x SF CF E) as ((_ & F & _) & _ & B). unfold phase_rate in E. destruct (has_rate t && _ && _); [|discriminate]. now split.
    + unfold phase_rate in E. destruct (has_rate t && _ && _); [discriminate|exact Logic.I].
  - apply is_real_map. unfold rep_c2n, density. destruct (has_cnr t) eqn:H; [|exact Logic.I]. destruct (cnr_val t c CF H) as (_ & F & E). split; [exact F|].
    rewrite E. replace (_ - _)%R with 0%R by ring. rewrite Rabs_R0. lra.
  - f_equal. unfold rep_ltm, lock. rewrite <- PB. destruct (has_cnr t); [reflexivity|]. destruct (rep_phs t s b c); reflexivity.
  - f_equal. unfold rep_hca, half. rewrite <- PB. destruct (has_cnr t); [reflexivity|]. destruct (rep_phs t s b c); reflexivity.
Qed.

(** ** Frames *)
Lemma carries_transport f l : carries f l -> exists payload crc, transport_frame f payload crc.
Proof. intros (p & c & _ & TF & _). eauto. Qed.
Lemma brings_transport bare f x : brings bare f x -> exists payload crc, transport_frame f payload crc.
Proof.
  destruct x; cbn [brings]; intros H.
  - destruct H as (_ & _ & _ & c & TF). eauto.
  - destruct H as (_ & _ & c & TF). eauto.
  - destruct H as (_ & C & _). exact (carries_transport _ _ C).
  - destruct H as (_ & _ & C). exact (carries_transport _ _ C).
  - destruct H as (_ & C). exact (carries_transport _ _ C).
  - destruct H as (_ & _ & _ & C & _). exact (carries_transport _ _ C).
Qed.
Lemma brings_number bare f x : brings bare f x -> has_number f (message_number x).
Proof.
  destruct x as [t p|t p|m|id mjd sec leap l|id c r b|m]; cbn [brings message_number]; intros H.
  - destruct H as (_ & (L & A) & _ & c & TF). exact (frame_number _ _ _ _ TF L A).
  - destruct H as ((L & A) & _ & c & TF). exact (frame_number _ _ _ _ TF L A).
  - destruct H as (_ & C & _). destruct m; cbn [text_bits text_number] in *; (eapply carries_number; [exact C|lia]).
  - destruct H as (_ & _ & C). eapply carries_number; [exact C|lia].
  - destruct H as (_ & C). eapply carries_number; [exact C|lia].
  - destruct H as (_ & _ & _ & C & _). unfold msm_bits, header_bits in C. rewrite <- app_assoc in C.
    refine (carries_number f _ _ C _). destruct (m_gnss m), (m_type m); cbn; lia.
Qed.

Lemma brought ctl mode f x : mode <> "MARGO" -> brings (is_bare mode) f x ->
  exists o, answer (map Register (decoders_of mode)) f = Ok (Some o) /\ shows_element ctl (is_bare mode) x (json_of ctl o).
Proof.
  intros M H. pose proof (brings_number _ _ _ H) as N. destruct (brings_transport _ _ _ H) as (p0 & c0 & TF0). pose proof (transport_bytes _ _ _ TF0) as B.
  destruct x as [t p|t p|m|id mjd sec leap l|id c r b|m]; cbn [brings message_number] in *.
  - destruct H as (NT & A & L & crc & TF). destruct (eph_element ctl (is_bare mode) f p crc t NT TF A L) as (o & D & S).
    exists (OPy o). split; [|exact S]. exact (eph_answer mode f t o M B N D).
  - destruct H as (A & L & crc & TF). destruct (C40_position ctl (is_bare mode) f p crc t TF A L) as (o & D & S).
    exists (OPy o). split; [|exact S]. refine (base_answer mode f _ o M B N _ D). destruct t; cbn; tauto.
  - destruct H as (OK & C & G). assert (In (text_number m) [1005; 1006; 1007; 1008; 1033; 1013; 1029; 1230]) as I by (destruct m; cbn; tauto).
    destruct (is_bare mode) eqn:EB.
    + destruct (C40_text_bare ctl f m OK C) as (o & D & S). exists (OPy o). split; [rewrite <- EB in D; exact (base_answer mode f _ o M B N I D)|].
      exists hex_listing. split; [reflexivity|exact S].
    + destruct (C27_scaled_text_partial f m OK C (G eq_refl)) as (sh & D & _). destruct (C40_text_scaled ctl f m _ OK C D) as (show & S1 & S2).
      eexists. split; [rewrite <- EB in D; exact (base_answer mode f _ _ M B N I D)|]. exists show. split; [exact S1|exact S2].
  - destruct H as (OK & NE & C). destruct (C40_schedule ctl (is_bare mode) f id mjd sec leap l OK NE C) as (o & D & S).
    exists (OPy o). split; [|exact S]. refine (base_answer mode f _ o M B N _ D). cbn; tauto.
  - destruct H as (OK & C). destruct (C40_biases ctl (is_bare mode) f id c r b OK C) as (o & D & S).
    exists (OPy o). split; [|exact S]. refine (base_answer mode f _ o M B N _ D). cbn; tauto.
  - destruct H as (OK & NE & PL & C & K). destruct (is_bare mode) eqn:EB.
    + exists (OMsm (MsmBare (bare_of m))). split; [|apply bare_shown].
      apply (msm_object mode f (m_gnss m) (m_type m)); try assumption; rewrite EB.
      * exact (proj1 (decode_bare_ok f m OK NE C) PL).
      * cbn [class_of]. unfold bare_of. destruct (m_gnss m), (m_type m); reflexivity.
    + specialize (K eq_refl). destruct (readable_codes m (conj OK (conj NE (conj PL K)))) as (codes & EC).
      exists (OMsm (MsmScaled (scaled_of m codes))). split; [|now apply scaled_shown].
      apply (msm_object mode f (m_gnss m) (m_type m)); try assumption; rewrite EB.
      * exact (C16_scaled_object f m codes OK NE C PL EC).
      * cbn [class_of]. destruct (m_gnss m), (m_type m); reflexivity.
Qed.

Lemma rp_inv bare f payload crc t o : transport_frame f payload crc -> base_get_msg_num f = Ok (rp_number t) ->
  subdecoder_base bare f = Ok (Some o) -> zlen payload = rp_bytes t.
Proof.
  intros F EN H. apply sub_base_inv in H. unfold base_decode in H. apply bind_ok in H. destruct H as (b & H & _).
  rewrite (rp_decode_steps _ t EN) in H. pose proof (ReadProofs.frame_at _ _ _ F) as (_ & _ & LB & BO). destruct (rp_width t) as [W1 W2].
  destruct (run_steps _ _ _) as [[bs off]|e]; cbn [bind] in H; [|discriminate].
  destruct (base_length_check (layout_width (rp_layout t)) (off - 24) (zlen f)) as [u|e] eqn:EC; [|discriminate].
  apply base_check_inv in EC. lia.
Qed.
Lemma payload_number f payload crc n : transport_frame f payload crc -> has_number f n -> 2 <= zlen payload -> BaseSpec.numbered payload n.
Proof.
  intros TF N L. split; [exact L|]. pose proof (frame_number f payload crc _ TF L eq_refl) as N'. exact (has_number_fun _ _ _ N' N).
Qed.

Lemma answered mode f o : valid_frame f -> answer (map Register (decoders_of mode)) f = Ok (Some o) -> exists x, brings (is_bare mode) f x.
Proof.
  intros V A. destruct (valid_transport f V) as (payload & crc & TF). pose proof (valid_frame_bytes f V) as B.
  destruct (C12_result _ _ _ B A) as (io & n & cls & g & I & HN & (Cl & _) & SD & R & IS).
  pose proof (number_getbitu _ _ B HN) as GN.
  apply force_registered in I. apply (mode_standard mode) in I. set (bare := is_bare mode) in *. clearbody bare. clear A.
  assert (MS : wrap_msm (decode_msm17 bare f) = Ok (Some o) -> exists x, brings bare f x).
  { intros W. unfold wrap_msm in W. destruct (decode_msm17 bare f) as [[r|]|] eqn:DM; cbn in W; try discriminate. clear W.
    unfold decode_msm17 in DM. destruct (bare_decode f) as [b|e] eqn:BD; [|destruct (is_exception e); discriminate].
    pose proof (proj1 (bare_decode_iff _ _ _ _ TF) BD) as (m & OK & NE & P & Ca & ->). exists (MMsm m). cbn [brings]. do 4 (split; [assumption|]).
    intros ->. rewrite convert_ok in DM by assumption. destruct (codes_of _ _) as [codes|] eqn:EC; [|discriminate].
    intros k K Nn. assert (X : codes_of (m_gnss m) (m_sigs m) = None) by (apply codes_of_known; eauto). congruence. }
  destruct I as [<-|[<-|[<-|[<-|[]]]]]; cbn [sd_decode sub_msm4567 sub_msm123 sub_eph sub_base sd_spec] in SD, Cl;
      apply (f_equal (fun x => match x with Some g => g f | None => Err EKey end)) in SD; rewrite R in SD.
  - now apply MS.
  - now apply MS.
  - unfold wrap_py in SD. destruct (EphModel.subdecoder_eph _ f) as [[p|]|] eqn:D; cbn in SD; try discriminate.
    destruct (proj1 (eph_decoded_iff bare _ _ _ TF) (ex_intro _ p D)) as (t & NT & AN & L). exists (MEph t payload). cbn [brings]. eauto 6.
  - unfold wrap_py in SD. destruct (BaseModel.subdecoder_base _ f) as [[p|]|] eqn:D; cbn in SD; try discriminate. clear SD.
    apply zget_in in Cl. assert (NI : In n [1005; 1006; 1007; 1008; 1033; 1013; 1029; 1230]).
    { apply (in_map fst) in Cl. vm_compute in Cl. cbn [In]. tauto. }
    assert (T : In n [1007; 1008; 1033; 1029] -> exists x, brings bare f x).
    { intros NT. pose proof D as D0. apply sub_base_inv in D. pose proof D as D1. unfold base_decode in D. apply bind_ok in D. destruct D as (b & H & _).
      destruct (text_bare_inv _ _ _ _ _ TF GN NT H) as (m & OK & C). exists (MText m). cbn [brings]. split; [exact OK|]. split; [exact C|].
      intros ->. exact (text_scaled_inv _ _ _ OK C D1). }
    assert (P : forall t, n = rp_number t -> exists x, brings bare f x).
    { intros t ->. pose proof (rp_inv _ _ _ _ _ _ TF GN D) as L. exists (MPos t payload). cbn [brings]. split; [|split; [exact L|eauto]].
      apply (payload_number _ _ _ _ TF HN). rewrite L. destruct t; vm_compute; discriminate. }
    destruct NI as [E|[E|[E|[E|[E|[E|[E|[E|[]]]]]]]]].
    + now apply (P R1005).
    + now apply (P R1006).
    + apply T. subst n. cbn; tauto.
    + apply T. subst n. cbn; tauto.
    + apply T. subst n. cbn; tauto.
    + subst n. apply sub_base_inv in D. unfold base_decode in D. apply bind_ok in D. destruct D as (b & H & _).
      destruct (sp_bare_inv _ _ _ _ TF GN H) as (id & mjd & sec & leap & l & OK & NE & C). exists (MSched id mjd sec leap l). cbn [brings]. auto.
    + apply T. subst n. cbn; tauto.
    + subst n. apply sub_base_inv in D. unfold base_decode in D. apply bind_ok in D. destruct D as (b & H & _).
      destruct (glbs_bare_inv _ _ _ _ TF GN H) as (id & c & r & bi & OK & C). exists (MBias id c r bi). cbn [brings]. auto.
Qed.

(** ** Files *)
Lemma margo_class f o : bytes_ok f -> answer (map Register (decoders_of "MARGO")) f = Ok (Some o) -> class_of o = "ObservablesMSM".
Proof.
  intros B A. destruct (C12_result _ _ _ B A) as (io & n & cls & g & I & HN & (Cl & _) & SD & R & IS).
  apply force_registered in I. apply zget_in in Cl. assert (cls = "ObservablesMSM") as ->.
  { apply in_map_iff in I. destruct I as (io' & E & I). injection E as ->. destruct I as [<-|[<-|[]]];
      apply in_map_iff in Cl; destruct Cl as (? & X & _); congruence. }
  apply isinstance_super in IS. destruct IS as [E|[(E & _)|[(E & _)|(E & _)]]]; [exact E|discriminate..].
Qed.
Lemma object_facts mode f x o : brings (is_bare mode) f x -> answer (map Register (decoders_of mode)) f = Ok (Some o) ->
  number_of o = Some (message_number x) /\ DecoderSpec.announced (is_bare mode) (message_number x) = Some (class_of o).
Proof.
  intros H A. pose proof (brings_number _ _ _ H) as N. destruct (brings_transport _ _ _ H) as (p & c & TF).
  destruct (decoded_object (PropertiesJson.sample_controls true) (is_bare mode) _ f p c o (mode_standard mode) TF A) as (_ & n & N' & E).
  rewrite (has_number_fun _ _ _ N N'). split; [exact E|].
  destruct (C12_standard (is_bare mode) _ f (mode_standard mode) (transport_bytes _ _ _ TF)) as [X|(o' & n' & A' & N'' & C)]; [congruence|].
  assert (o' = o) as -> by congruence. now rewrite (has_number_fun _ _ _ N' N'').
Qed.
Lemma element_family mode x o : In mode ["MARGO"; "JSON"; "JSON-B"; "JARGO"] -> mode <> "MARGO" ->
  DecoderSpec.announced (is_bare mode) (message_number x) = Some (class_of o) ->
  same_family (family_of mode o) JsonFiles = in_json mode x.
Proof.
  intros M NM C. unfold family_of. generalize dependent (class_of o). intros cls C. destruct M as [<-|[<-|[<-|[<-|[]]]]]; [congruence| | |].
  - rewrite andb_false_r. destruct x; reflexivity.
  - rewrite andb_false_r. destruct x; reflexivity.
  - change (is_bare "JARGO") with false in C. rewrite andb_true_r. destruct x as [t p|t p|m| | |m]; cbn [message_number] in C.
    1-3: first [destruct t|destruct m]; vm_compute in C; injection C as <-; reflexivity.
    1-2: vm_compute in C; injection C as <-; reflexivity.
    destruct (m_gnss m), (m_type m); vm_compute in C; injection C as <-; reflexivity.
Qed.

Section Shown.
Context (ctl : json_controls).
Definition goes_with (mode : string) (num : Z) (o : rtcm_obj) (x : message) : Prop :=
  DecoderSpec.announced (is_bare mode) num = Some (class_of o) /\ shows_element ctl (is_bare mode) x (json_of ctl o).
Lemma elements mode num : In mode ["MARGO"; "JSON"; "JSON-B"; "JARGO"] -> forall frames msgs,
  Forall valid_frame frames -> Forall2 (receives (is_bare mode)) frames msgs ->
  Forall2 (goes_with mode num) (MainSpec.numbered mode num (objects mode frames)) (filter (element_of mode num) (received msgs)).
Proof.
  intros M frames msgs V F. induction F as [|f r frames msgs A F IH]; [constructor|]. inversion V as [|? ? V1 V2]; subst. specialize (IH V2).
  unfold MainSpec.numbered, objects, received in *. cbn [flat_map]. rewrite !filter_app. apply Forall2_app; [|exact IH]. clear IH F.
  destruct (string_dec mode "MARGO") as [->|NM].
  - assert (L : filter (element_of "MARGO" num) (match r with Some x => [x] | None => [] end) = []) by (destruct r as [[]|]; reflexivity). rewrite L.
    destruct (answer (map Register (decoders_of "MARGO")) f) as [[o|]|e] eqn:E; try constructor.
    apply margo_class in E; [|exact (valid_frame_bytes f V1)]. cbn [filter]. unfold family_of. rewrite E. constructor.
  - inversion A as [? x H|? N]; subst.
    + destruct (brought ctl mode f x NM H) as (o & E & S). rewrite E. destruct (object_facts mode f x o H E) as (NO & C).
      cbn [filter]. rewrite NO, (element_family mode x o M NM C). fold (element_of mode num x).
      destruct (element_of mode num x) eqn:Q; [|constructor]. constructor; [|constructor]. split; [|exact S].
      unfold element_of in Q. apply andb_prop in Q as (_ & Q). apply Z.eqb_eq in Q. now rewrite <- Q.
    + destruct (answer (map Register (decoders_of mode)) f) as [[o|]|e] eqn:E; try constructor.
      destruct (answered mode f o V1 E) as (x & H). destruct (N x H).
Qed.
End Shown.

Lemma receives_total bare f : valid_frame f -> exists r, receives bare f r.
Proof.
  intros V. set (mode := if bare then "JSON-B" else "JSON"). assert (B : is_bare mode = bare) by (destruct bare; reflexivity).
  assert (NM : mode <> "MARGO") by (destruct bare; discriminate).
  destruct (answer (map Register (decoders_of mode)) f) as [[o|]|e] eqn:E.
  - destruct (answered mode f o V E) as (x & H). exists (Some x). constructor. now rewrite <- B.
  - exists None. constructor. intros x H. rewrite <- B in H. destruct (brought (PropertiesJson.sample_controls true) mode f x NM H) as (o & E' & _). congruence.
  - exists None. constructor. intros x H. rewrite <- B in H. destruct (brought (PropertiesJson.sample_controls true) mode f x NM H) as (o & E' & _). congruence.
Qed.
