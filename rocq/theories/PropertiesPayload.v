(** * PropertiesPayload: C44, what is decoded depends on the payload alone. *)
From Verif Require Import PyBase PyDict PyVal BitsModel BitsSpec BitsProofs MessageSpec ReadProofs TestData
  FramerModel MsmModel MsmSpec MsmConverse MsmTheorems PropertiesMsm EphModel EphSpec EphProofs EphTheorems PropertiesEph
  BaseModel BaseSpec BaseProofs BaseTextProofs BaseSchedProofs DecoderModel DecoderSpec DecoderProofs PropertiesDecoder.
Local Open Scope string_scope.
Local Open Scope list_scope.
Local Open Scope Z_scope.

(** ** Two frames with one payload *)
Section Two.
Variables (buf buf' payload crc crc' : list Z).
Hypothesis F : transport_frame buf payload crc.
Hypothesis F' : transport_frame buf' payload crc'.

Lemma carries_payload B : carries buf B -> carries buf' B /\ zlen payload = (zlen B + 7) / 8.
Proof.
  intros (p2 & c2 & pad & F2 & E & P).
  assert (Q : p2 = payload).
  { destruct F as (E1 & L1 & C1 & _), F2 as (E2 & L2 & C2 & _). rewrite E1 in E2. unfold frame_of in E2.
    assert (L : length payload = length p2).
    { apply (f_equal (@length Z)) in E2. rewrite !app_length in E2. unfold zlen in *. cbn [length] in E2. lia. }
    change (([211; zlen payload / 256; zlen payload mod 256] ++ payload ++ crc) =
            ([211; zlen p2 / 256; zlen p2 mod 256] ++ p2 ++ c2)) in E2.
    apply (f_equal (skipn 3)) in E2. cbn [skipn app] in E2.
    apply (f_equal (firstn (length payload))) in E2.
    rewrite firstn_app, firstn_all, Nat.sub_diag, L, firstn_app, firstn_all, Nat.sub_diag in E2.
    cbn [firstn] in E2. rewrite !app_nil_r in E2. now symmetry. }
  subst p2. split.
  - exists payload, crc', pad. auto.
  - pose proof (zlen_bits_of payload) as ZB. rewrite E in ZB. unfold zlen in *. rewrite app_length in ZB. lia.
Qed.

Lemma num_at : exists n, getbitu buf 24 12 = Ok n.
Proof.
  destruct (frame_at _ _ _ F) as (_ & _ & L & B). eexists. apply getbitu_ok; [exact B|].
  unfold field_inside, zlen in *. lia.
Qed.

Lemma base_payload o : base_decode_bare buf = Ok o -> base_decode_bare buf' = Ok o /\ 2 <= zlen payload.
Proof.
  intros H. destruct num_at as (n & EN).
  assert (I : In n base_msgList).
  { pose proof H as H0. unfold base_decode_bare, base_get_msg_num in H0. rewrite EN in H0. cbn [bind] in H0.
    repeat match type of H0 with context [n =? ?k] =>
      destruct (Z.eqb_spec n k) as [->|?]; [cbn; tauto|] end. discriminate. }
  assert (RP : forall t, n = rp_number t -> base_decode_bare buf' = Ok o /\ 2 <= zlen payload).
  { intros t ->. assert (L : zlen payload = rp_bytes t).
    { pose proof H as H0. rewrite (rp_decode_steps _ t EN) in H0. apply bind_ok in H0. destruct H0 as ([bs off] & _ & H0).
      apply bind_ok in H0. destruct H0 as (u & H0 & _). apply base_check_inv in H0. destruct H0 as [_ H0].
      destruct (frame_at _ _ _ F) as (_ & _ & LB & _). destruct (rp_width t) as [W _]. lia. }
    assert (L2 : 2 <= zlen payload) by (destruct t; cbn in L; lia).
    split; [|exact L2].
    assert (N : numbered payload (rp_number t)).
    { split; [exact L2|]. pose proof (base_msg_num buf payload crc _ F (conj L2 eq_refl)) as EN'. unfold base_get_msg_num in EN'. congruence. }
    rewrite (rp_bare_ok _ _ _ t F N L) in H. rewrite (rp_bare_ok _ _ _ t F' N L). exact H. }
  assert (TX : In n [1007; 1008; 1033; 1029] -> base_decode_bare buf' = Ok o /\ 2 <= zlen payload).
  { intros J. destruct (text_bare_inv _ _ _ _ _ F EN J H) as (m & OK & C).
    destruct (carries_payload _ C) as [C' L]. rewrite (text_bare_ok _ _ OK C) in H. rewrite (text_bare_ok _ _ OK C').
    split; [exact H|]. destruct m; cbn [text_bits] in L; rewrite zlen_app, zlen_enc in L;
      match type of L with context [zlen (?x ++ ?y)] => pose proof (zlen_nonneg (x ++ y)) end; lia. }
  cbn [base_msgList In] in I.
  destruct I as [<-|[<-|[<-|[<-|[<-|[<-|[<-|[<-|[]]]]]]]]];
    try (apply TX; cbn; tauto); try (apply (RP R1005); reflexivity); try (apply (RP R1006); reflexivity).
  - destruct (sp_bare_inv _ _ _ _ F EN H) as (id & mjd & sec & leap & l & OK & NE & C).
    destruct (carries_payload _ C) as [C' L]. rewrite (sp_bare_ok _ _ _ _ _ _ OK NE C) in H.
    rewrite (sp_bare_ok _ _ _ _ _ _ OK NE C'). split; [exact H|].
    unfold sp_bits in L. rewrite zlen_app, zlen_enc in L.
    match type of L with context [zlen (?x ++ ?y)] => pose proof (zlen_nonneg (x ++ y)) end. lia.
  - destruct (glbs_bare_inv _ _ _ _ F EN H) as (id & c & rsv & b & OK & C).
    destruct (carries_payload _ C) as [C' L]. rewrite (glbs_bare_ok _ _ _ _ _ OK C) in H.
    rewrite (glbs_bare_ok _ _ _ _ _ OK C'). split; [exact H|].
    unfold glbs_bits in L. rewrite zlen_app, zlen_enc in L.
    match type of L with context [zlen (?x ++ ?y)] => pose proof (zlen_nonneg (x ++ y)) end. lia.
Qed.

Lemma msm_payload bare r : decode_msm17 bare buf = Ok (Some r) ->
  decode_msm17 bare buf' = Ok (Some r) /\ 2 <= zlen payload.
Proof.
  intros H. unfold decode_msm17 in *. destruct (bare_decode buf) as [b|e] eqn:E.
  2:{ destruct (is_exception e); discriminate. }
  destruct (proj1 (bare_decode_iff _ _ _ _ F) E) as (m & OK & NE & P & C & Q).
  destruct (carries_payload _ C) as [C' L].
  rewrite (proj2 (bare_decode_iff _ _ _ b F') (ex_intro _ m (conj OK (conj NE (conj P (conj C' Q)))))).
  split; [exact H|]. rewrite msm_bits_length in L by exact OK.
  assert (0 <= zlen (m_rows m) * zlen (m_sigs m)) by (apply Z.mul_nonneg_nonneg; apply zlen_nonneg).
  assert (0 <= columns_width (sat_columns (m_type m)) * zlen (m_rows m)).
  { apply Z.mul_nonneg_nonneg; [destruct (m_type m); vm_compute; congruence|apply zlen_nonneg]. }
  assert (0 <= columns_width (cell_columns (m_type m)) * zlen (m_cells m)).
  { apply Z.mul_nonneg_nonneg; [destruct (m_type m); vm_compute; congruence|apply zlen_nonneg]. }
  lia.
Qed.

Lemma std_payload bare io f o : standard bare io -> sd_decode io = Some f -> f buf = Ok (Some o) ->
  f buf' = Ok (Some o) /\ 2 <= zlen payload.
Proof.
  intros [<-|[<-|[<-|[<-|[]]]]] E R; cbn [sd_decode sub_msm4567 sub_msm123 sub_eph sub_base] in E;
    injection E as <-; cbv beta in *.
  - unfold wrap_msm in *. destruct (decode_msm17 bare buf) as [[r|]|e] eqn:D; try discriminate.
    destruct (msm_payload _ _ D) as [D' L]. rewrite D'. now split.
  - unfold wrap_msm in *. destruct (decode_msm17 bare buf) as [[r|]|e] eqn:D; try discriminate.
    destruct (msm_payload _ _ D) as [D' L]. rewrite D'. now split.
  - unfold wrap_py in *. rewrite <- (C24_payload_only bare _ _ _ _ _ F F'). split; [exact R|].
    destruct (subdecoder_eph bare buf) as [[r|]|e] eqn:D; try discriminate.
    destruct (proj1 (C24_decoded_iff_long_enough bare _ _ _ F) (ex_intro _ r D)) as (t & _ & [L _] & _). exact L.
  - unfold wrap_py in *. destruct (subdecoder_base bare buf) as [[r|]|e] eqn:D; try discriminate.
    apply sub_base_inv in D. unfold base_decode in D. apply bind_ok in D. destruct D as (b & D & S).
    destruct (base_payload _ D) as [D' L]. split; [|exact L].
    rewrite (sub_base_some bare buf' r); [exact R|]. unfold base_decode. rewrite D'. exact S.
Qed.
End Two.

(** ** The number *)

(** A payload of two bytes or more: the number is a function of the payload. *)
Theorem C44_number_partial : forall buf buf' payload crc crc',
  transport_frame buf payload crc -> transport_frame buf' payload crc' -> 2 <= zlen payload ->
  exists n, mnum buf = Ok (Some n) /\ mnum buf' = Ok (Some n) /\ n = uval (firstn 12 (bits_of payload)).
Proof.
  intros buf buf' payload crc crc' F F' L. exists (uval (firstn 12 (bits_of payload))).
  pose proof (base_msg_num buf payload crc _ F (conj L eq_refl)) as E.
  pose proof (base_msg_num buf' payload crc' _ F' (conj L eq_refl)) as E'.
  unfold mnum, base_get_msg_num in *. rewrite E, E'. auto.
Qed.
Print Assumptions C44_number_partial.

(** ** The object *)

(** Whatever the registered sub-decoders and whatever was decoded before: the same payload
    (of any length) gives the same answer. *)
Theorem C44_object : forall bare h buf buf' payload crc crc',
  standard_history bare h -> transport_frame buf payload crc -> transport_frame buf' payload crc' ->
  answer h buf = answer h buf'.
Proof.
  assert (G : forall bare h buf buf' payload crc crc', standard_history bare h ->
    transport_frame buf payload crc -> transport_frame buf' payload crc' ->
    forall o, answer h buf = Ok (Some o) -> answer h buf' = Ok (Some o)).
  { intros bare h buf buf' payload crc crc' S F F' o R.
    assert (B : bytes_ok buf) by (destruct (frame_at _ _ _ F) as (_ & _ & _ & B); exact B).
    destruct (C12_result h buf o B R) as (io & n & cls & f & I & _ & _ & Ef & Rf & _).
    destruct (std_payload _ _ _ _ _ F F' bare io f o (S _ (force_registered _ _ I)) Ef Rf) as [_ L].
    destruct (C44_number_partial _ _ _ _ _ F F' L) as (k & M & M' & _).
    unfold answer, decode, decode_body in *. rewrite M in R. rewrite M'.
    destruct (find _ _) as [dec|] eqn:Fi; [|discriminate]. cbv zeta in *.
    pose proof (proj1 (in_table h dec) (proj1 (find_some _ _ Fi))) as If.
    pose proof (S _ (force_registered _ _ If)) as Sd.
    destruct (sd_decode dec) as [g|] eqn:Eg; [|discriminate].
    destruct (g buf) as [rv|e] eqn:Gb.
    2:{ cbn [fst] in R. destruct (is_exception e); discriminate. }
    destruct rv as [o'|].
    2:{ cbn [isinstance negb] in R. destruct (zindex (sd_spec dec) k); cbn [fst] in R;
          [|destruct (is_exception e)]; discriminate. }
    destruct (std_payload _ _ _ _ _ F F' bare dec g o' Sd Eg Gb) as [-> _].
    destruct (zindex (sd_spec dec) k) as [c|e]; [|destruct (is_exception e); exact R].
    destruct (negb (isinstance (Some o') c)); exact R. }
  intros bare h buf buf' payload crc crc' S F F'.
  assert (B : bytes_ok buf) by (destruct (frame_at _ _ _ F) as (_ & _ & _ & B); exact B).
  assert (B' : bytes_ok buf') by (destruct (frame_at _ _ _ F') as (_ & _ & _ & B'); exact B').
  destruct (C12_standard bare h buf S B) as [E|(o & n & E & _)].
  - destruct (C12_standard bare h buf' S B') as [E'|(o & n & E' & _)]; [congruence|].
    rewrite (G _ _ _ _ _ _ _ S F' F o E') in E. discriminate.
  - now rewrite E, (G _ _ _ _ _ _ _ S F F' o E).
Qed.
Print Assumptions C44_object.

(** A payload of less than two bytes is never decoded, whatever number the checksum gives it. *)
Theorem C44_tiny : forall bare h buf payload crc,
  standard_history bare h -> transport_frame buf payload crc -> zlen payload < 2 -> answer h buf = Ok None.
Proof.
  intros bare h buf payload crc S F L.
  assert (B : bytes_ok buf) by (destruct (frame_at _ _ _ F) as (_ & _ & _ & B); exact B).
  destruct (C12_standard bare h buf S B) as [E|(o & n & E & _)]; [exact E|].
  destruct (C12_result h buf o B E) as (io & k & cls & f & I & _ & _ & Ef & Rf & _).
  destruct (std_payload _ _ _ _ _ F F bare io f o (S _ (force_registered _ _ I)) Ef Rf) as [_ L']. lia.
Qed.
Print Assumptions C44_tiny.

(** Non-vacuity: the station message 1005 with another checksum. *)
Example C44_nonvacuous :
  let f := first_frame sample_1005 in
  let p := frame_payload f in
  transport_frame f p (skipn (Z.to_nat (3 + zlen p)) f) /\ transport_frame (frame_of p [1; 2; 3]) p [1; 2; 3] /\
  2 <= zlen p /\ standard_history false sample_history /\
  exists o, answer sample_history f = Ok (Some o) /\ class_of o = "BaseRP".
Proof.
  cbv zeta. split; [|split; [|split; [|split]]].
  - split; [vm_compute; reflexivity|]. split; [vm_compute; congruence|]. split; [reflexivity|].
    split; apply bytes_okb_ok; vm_compute; reflexivity.
  - split; [reflexivity|]. split; [vm_compute; congruence|]. split; [reflexivity|].
    split; apply bytes_okb_ok; vm_compute; reflexivity.
  - vm_compute. congruence.
  - apply C12_nonvacuous.
  - eexists. vm_compute. split; reflexivity.
Qed.
