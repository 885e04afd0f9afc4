(** * FramerTheorems: consequences of the reference segmentation. *)
From Verif Require Import PyBase BitsModel BitsSpec BitsProofs CrcModel CrcSpec CrcProofs
  FramerModel FramerSpec FramerProofs.

Lemma scans_embedded s segs rest : scans s segs rest -> embedded (frames_of segs) s.
Proof.
  induction 1 as [|s P|f s segs rest V S IH|b s segs rest NP NV S IH];
    unfold frames_of in *; cbn [flat_map app]; try constructor.
  - apply (embedded_cons [] f). exact IH.
  - inversion IH as [s0 E1|g m ms s0 H E1]; subst; [constructor|].
    apply (embedded_cons (b :: g) m). exact H.
Qed.

Lemma feed_sound chunks st ms : Forall bytes_ok chunks ->
  feed framer_init chunks = Ok (st, ms) ->
  Forall valid_frame ms /\ embedded ms (concat chunks).
Proof.
  intros H E. destruct (feed_reference chunks H) as (st' & segs & rest & E' & S & _).
  rewrite E in E'; inversion E'; subst.
  split; [eapply scans_frames_valid|eapply scans_embedded]; eauto.
Qed.

Lemma feed_chunking chunks1 chunks2 : Forall bytes_ok chunks1 -> Forall bytes_ok chunks2 ->
  concat chunks1 = concat chunks2 ->
  exists st1 st2 ms,
    feed framer_init chunks1 = Ok (st1, ms) /\ feed framer_init chunks2 = Ok (st2, ms) /\
    fr_errs st1 = fr_errs st2.
Proof.
  intros H1 H2 E.
  destruct (feed_reference chunks1 H1) as (st1 & segs1 & rest1 & E1 & S1 & F1 & _).
  destruct (feed_reference chunks2 H2) as (st2 & segs2 & rest2 & E2 & S2 & F2 & _).
  rewrite E in S1. destruct (scans_functional _ _ _ S1 _ _ S2) as [-> ->].
  exists st1, st2, (frames_of segs2). repeat split; auto. congruence.
Qed.

(** ** Clean streams *)
Lemma gap_scans g s segs rest : no_preamble g -> bytes_ok s -> scans s segs rest ->
  scans (g ++ s) (map Junk g ++ segs) rest.
Proof.
  intros [Hb Hn] Hs S. apply drops_scans with (s' := s); auto.
  - apply bytes_ok_app; auto.
  - apply drops_nonD3. apply Forall_forall. intros x Hx E. subst x. auto.
Qed.

Definition gf_segs (gf : list Z * list Z) : list segment := map Junk (fst gf) ++ [Frame (snd gf)].

Lemma padded_scans gfs lg :
  Forall (fun gf => no_preamble (fst gf) /\ valid_frame (snd gf)) gfs -> no_preamble lg ->
  bytes_ok (padded_stream gfs lg) /\
  scans (padded_stream gfs lg) (concat (map gf_segs gfs) ++ map Junk lg) [].
Proof.
  intros H Hl. unfold padded_stream.
  induction H as [|[g f] gfs [Hg Hf] H [IHb IHs]]; cbn [map concat app fst snd] in *.
  - split; [apply Hl|]. rewrite <- (app_nil_r lg) at 1. rewrite <- (app_nil_r (map Junk lg)).
    apply gap_scans; auto; constructor.
  - pose proof (valid_frame_bytes f Hf) as Hfb.
    assert (B : bytes_ok (f ++ concat (map (fun gf => fst gf ++ snd gf) gfs) ++ lg))
      by (apply bytes_ok_app; auto).
    rewrite <- !app_assoc. split; [apply bytes_ok_app; split; [apply Hg|exact B]|].
    unfold gf_segs at 1. cbn [fst snd]. rewrite <- !app_assoc. cbn [app].
    apply gap_scans; auto. constructor; auto.
Qed.

Lemma padded_frames gfs lg : frames_of (concat (map gf_segs gfs) ++ map Junk lg) = map snd gfs.
Proof.
  induction gfs as [|[g f] gfs IH]; cbn [map concat app].
  - rewrite <- (app_nil_r (map Junk lg)), frames_of_junk. reflexivity.
  - unfold gf_segs at 1. cbn [fst snd]. rewrite <- !app_assoc, frames_of_junk. cbn [app].
    unfold frames_of at 1. cbn [flat_map app]. f_equal. exact IH.
Qed.

Lemma gaps_junk js segs : gaps_since_frame true (map Junk js ++ segs) = gaps_since_frame true segs.
Proof. induction js; cbn [map app gaps_since_frame]; auto. Qed.

Lemma gaps_padded gfs lg : 
  gaps_since_frame false (concat (map gf_segs gfs) ++ map Junk lg)
  = zlen (filter (fun gf : list Z * list Z => match fst gf with [] => false | _ => true end) gfs).
Proof.
  induction gfs as [|[g f] gfs IH]; cbn [map concat app filter fst].
  - destruct lg as [|b lg]; [reflexivity|]. cbn [map gaps_since_frame].
    rewrite <- (app_nil_r (map Junk lg)), gaps_junk. reflexivity.
  - unfold gf_segs at 1. cbn [fst snd]. rewrite <- !app_assoc. cbn [app].
    destruct g as [|b g]; cbn [map app gaps_since_frame].
    + rewrite IH. lia.
    + rewrite gaps_junk. cbn [gaps_since_frame]. rewrite IH, zlen_cons. reflexivity.
Qed.

Lemma interrupted_junk js segs : interrupted_messages (map Junk js ++ segs) = interrupted_messages segs.
Proof. induction js; cbn [map app interrupted_messages]; auto. Qed.

Lemma interrupted_padded gfs lg :
  interrupted_messages (concat (map gf_segs gfs) ++ map Junk lg) = inner_gaps gfs.
Proof.
  unfold inner_gaps. destruct gfs as [|[g f] gfs]; cbn [map concat app tl].
  - rewrite <- (app_nil_r (map Junk lg)), interrupted_junk. reflexivity.
  - unfold gf_segs at 1. cbn [fst snd]. rewrite <- !app_assoc, interrupted_junk. cbn [app].
    cbn [interrupted_messages]. apply gaps_padded.
Qed.

Lemma feed_padded gfs lg chunks :
  Forall (fun gf => no_preamble (fst gf) /\ valid_frame (snd gf)) gfs -> no_preamble lg ->
  concat chunks = padded_stream gfs lg ->
  exists st, feed framer_init chunks = Ok (st, map snd gfs) /\ fr_errs st = inner_gaps gfs.
Proof.
  intros H Hl E. destruct (padded_scans gfs lg H Hl) as [Hb S].
  assert (HF : Forall bytes_ok chunks).
  { rewrite <- E in Hb. clear - Hb. induction chunks as [|c l IH]; [constructor|].
    cbn [concat] in Hb. apply bytes_ok_app in Hb as [? ?]. constructor; auto. }
  destruct (feed_reference chunks HF) as (st & segs & rest & E' & S' & F & _).
  rewrite E in S'. destruct (scans_functional _ _ _ S _ _ S') as [<- <-].
  exists st. rewrite padded_frames in E'. split; [exact E'|].
  rewrite F. apply interrupted_padded.
Qed.

(** ** Resynchronisation *)
Lemma scans_finds s segs rest : scans s segs rest -> forall p f q,
  s = p ++ f ++ q -> valid_frame f ->
  (exists s1 s2, segs = s1 ++ Frame f :: s2 /\ seg_bytes s1 = p) \/
  (exists s1 g s2, segs = s1 ++ Frame g :: s2 /\
     zlen (seg_bytes s1) < zlen p < zlen (seg_bytes s1) + zlen g) \/
  (zlen (seg_bytes segs) < zlen p /\ pending rest).
Proof.
  induction 1 as [|s P|g s segs rest V S IH|b s segs rest NP NV S IH]; intros p f q E Vf.
  - symmetry in E. apply app_eq_nil in E as [_ E]. apply app_eq_nil in E as [E _].
    now apply valid_frame_nonnil in E.
  - destruct p as [|x p].
    + exfalso. cbn [app] in E. refine (starts_valid_not_pending s _ P). exists f, q. auto.
    + right; right. split; [|exact P]. cbn [seg_bytes flat_map]. rewrite zlen_nil, zlen_cons.
      pose proof (zlen_nonneg p). lia.
  - destruct (app_eq_split _ _ _ _ E) as [(e & Ep & Es)|(e & N & Eg & Es)].
    + destruct (IH _ _ _ Es Vf) as [(s1 & s2 & -> & Hs)|[(s1 & g' & s2 & -> & Hs)|(Hs & Pd)]].
      * left. exists (Frame g :: s1), s2. split; [reflexivity|].
        cbn [seg_bytes flat_map]. rewrite Ep. f_equal. exact Hs.
      * right; left. exists (Frame g :: s1), g', s2. split; [reflexivity|].
        cbn [seg_bytes flat_map]. rewrite Ep, !zlen_app. unfold seg_bytes in Hs. lia.
      * right; right. split; [|exact Pd]. cbn [seg_bytes flat_map]. rewrite Ep, !zlen_app.
        unfold seg_bytes in Hs. lia.
    + destruct p as [|x p].
      * cbn [app] in E. destruct (frame_shape_prefix_eq g f s q) as [-> ->];
          auto using valid_frame_shape.
        left. exists [], segs. auto.
      * right; left. exists [], g, segs. split; [reflexivity|].
        cbn [seg_bytes flat_map]. rewrite zlen_nil. rewrite Eg, zlen_app, zlen_cons.
        destruct e; [congruence|]. rewrite zlen_cons. pose proof (zlen_nonneg p).
        pose proof (zlen_nonneg e). lia.
  - destruct p as [|x p].
    + exfalso. apply NV. exists f, q. auto.
    + inversion E; subst x s.
      destruct (IH _ _ _ eq_refl Vf) as [(s1 & s2 & -> & Hs)|[(s1 & g' & s2 & -> & Hs)|(Hs & Pd)]].
      * left. exists (Junk b :: s1), s2. split; [reflexivity|].
        cbn [seg_bytes flat_map app]. f_equal. exact Hs.
      * right; left. exists (Junk b :: s1), g', s2. split; [reflexivity|].
        cbn [seg_bytes flat_map]. rewrite zlen_app, !zlen_cons, zlen_nil. unfold seg_bytes in Hs. lia.
      * right; right. split; [|exact Pd]. cbn [seg_bytes flat_map].
        rewrite zlen_app, !zlen_cons, zlen_nil. unfold seg_bytes in Hs. lia.
Qed.

Lemma embedded_seg_bytes segs rest s0 : scans s0 segs rest -> forall s1 x s2, segs = s1 ++ x :: s2 ->
  embedded (frames_of s1) (seg_bytes s1).
Proof.
  intros _ s1 _ _ _. induction s1 as [|y s1 IH]; [constructor|].
  unfold frames_of, seg_bytes in *. cbn [flat_map]. destruct y as [b|f]; cbn [app].
  - inversion IH as [s E1|g m ms s H E1]; [constructor|]. apply (embedded_cons (b :: g) m). exact H.
  - apply (embedded_cons [] f). exact IH.
Qed.

(** After arbitrary garbage [p], a valid frame [f] followed by enough bytes is returned,
    unless an accepted frame that begins inside [p] extends over its start. *)
Lemma feed_resync chunks p f q :
  Forall bytes_ok chunks -> concat chunks = p ++ f ++ q -> valid_frame f -> 1028 <= zlen f + zlen q ->
  exists st ms, feed framer_init chunks = Ok (st, ms) /\
  ((exists ms1 ms2, ms = ms1 ++ f :: ms2 /\ embedded ms1 p) \/
   (exists a g b, concat chunks = a ++ g ++ b /\ In g ms /\
        zlen a < zlen p < zlen a + zlen g)).
Proof.
  intros HF E Vf Hl. destruct (feed_reference chunks HF) as (st & segs & rest & E' & S & _).
  exists st, (frames_of segs). split; [exact E'|].
  pose proof (scans_bytes _ _ _ S) as SB.
  destruct (scans_finds _ _ _ S p f q E Vf) as [(s1 & s2 & -> & Hs)|[(s1 & g & s2 & -> & Hs)|(Hs & Pd)]].
  - left. exists (frames_of s1), (frames_of s2). rewrite frames_of_app. split; [reflexivity|].
    rewrite <- Hs. eapply embedded_seg_bytes; eauto.
  - right. exists (seg_bytes s1), g, (seg_bytes s2 ++ rest).
    split; [|split; [|exact Hs]].
    + rewrite SB. unfold seg_bytes. rewrite flat_map_app. cbn [flat_map].
      now rewrite <- !app_assoc.
    + rewrite frames_of_app. apply in_or_app. right. left. reflexivity.
  - exfalso. apply pending_length in Pd.
    assert (zlen (seg_bytes segs) + zlen rest = zlen p + zlen f + zlen q).
    { rewrite <- !zlen_app, <- SB, E, app_assoc. reflexivity. }
    lia.
Qed.

(** ** Error detection *)
Lemma valid_divides f : valid_frame f -> gen_divides (uval (bits_of f)).
Proof.
  intros (h1 & h2 & p & c1 & c2 & c3 & -> & H1 & H2 & Hl & Hp & C1 & C2 & C3 & S).
  rewrite <- uval_bits3 in S by assumption.
  change (0xD3 :: h1 :: h2 :: p ++ [c1; c2; c3]) with ((0xD3 :: h1 :: h2 :: p) ++ [c1; c2; c3]).
  apply codeword_iff; auto.
  - repeat (apply bytes_ok_cons; split; [unfold byte_ok; lia|]). exact Hp.
  - repeat (apply bytes_ok_cons; split; [assumption|]). constructor.
Qed.

Definition detectable (e : list bool) : Prop :=
  Nat.odd (weight e) = true \/ weight e = 2%nat \/ (weight e <> 0%nat /\ burst 24 e).

Lemma mcrc_detects f f' t :
  valid_frame f -> bytes_ok f' -> bytes_ok t -> length f' = length f ->
  firstn 3 f' = firstn 3 f -> detectable (error_bits f f') ->
  mcrc (f' ++ t) = Ok (Some false).
Proof.
  intros V Hb' Ht Hlen H3 Hd.
  assert (Sh' : frame_shape f').
  { pose proof (valid_frame_shape f V) as (h1 & h2 & body & -> & H1 & H2 & Hl).
    destruct f' as [|a [|b [|c body']]]; cbn [length] in Hlen; try lia.
    cbn [firstn] in H3. inversion H3; subst. exists h1, h2, body'. repeat split; auto; try lia.
    unfold zlen in *. lia. }
  destruct (mcrc_ok f' t) as (b & E & Hv); [apply bytes_ok_app; auto|exact Sh'|].
  destruct b; [|exact E]. exfalso.
  assert (V' : valid_frame f') by tauto.
  pose proof (gen_divides_lxor _ _ (valid_divides f V) (valid_divides f' V')) as G.
  assert (LB : length (bits_of f) = length (bits_of f')) by (rewrite !length_bits_of; lia).
  rewrite <- uval_xor_bits in G by exact LB. fold (error_bits f f') in G.
  destruct Hd as [Hd|[Hd|[Hw Hd]]].
  - exact (odd_not_divides _ Hd G).
  - refine (double_not_divides _ Hd _ G).
    unfold error_bits, zlen. rewrite xor_bits_length by exact LB. rewrite length_bits_of.
    apply frame_shape_length in Sh'. unfold zlen in Sh'. lia.
  - exact (burst_not_divides _ Hd Hw G).
Qed.

Lemma mcrc_accepts f t : valid_frame f -> bytes_ok t -> mcrc (f ++ t) = Ok (Some true).
Proof.
  intros V Ht. destruct (mcrc_ok f t) as (b & E & Hv).
  - apply bytes_ok_app. split; [now apply valid_frame_bytes|exact Ht].
  - now apply valid_frame_shape.
  - replace b with true in E by (symmetry; tauto). exact E.
Qed.

(** A decision procedure for concrete frames (used by the Examples). *)
Definition frame_check (f : list Z) : bool :=
  forallb (fun b => (0 <=? b) && (b <? 256)) f &&
  match f with
  | p :: h1 :: h2 :: body =>
      (p =? 0xD3) && (h1 <? 4) && (zlen body =? 256 * h1 + h2 + 3) &&
      match mcrc f with Ok (Some true) => true | _ => false end
  | _ => false
  end.

Lemma valid_frame_check f : frame_check f = true -> valid_frame f.
Proof.
  unfold frame_check. intros H. apply andb_prop in H as [Hb H].
  assert (B : bytes_ok f).
  { rewrite forallb_forall in Hb. apply Forall_forall. intros x Hx.
    specialize (Hb x Hx). unfold byte_ok. lia. }
  destruct f as [|p [|h1 [|h2 body]]]; try discriminate.
  apply andb_prop in H as [H Hm]. pose proof B as B'.
  apply bytes_ok_cons in B' as [_ B']. apply bytes_ok_cons in B' as [B1 B'].
  apply bytes_ok_cons in B' as [B2 _]. unfold byte_ok in *.
  destruct (mcrc_ok (p :: h1 :: h2 :: body) []) as (b & E & Hv).
  - now rewrite app_nil_r.
  - exists h1, h2, body. repeat split; try lia. f_equal. lia.
  - rewrite app_nil_r in E. rewrite E in Hm. destruct b; [tauto|discriminate].
Qed.
