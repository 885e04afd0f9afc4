(** * PropertiesTail: C09 - what becomes of every valid frame of a stream, up to its end. *)
From Verif Require Import PyBase BitsModel BitsSpec BitsProofs CrcModel CrcSpec CrcProofs
  FramerModel FramerSpec FramerProofs FramerTheorems TestData PropertiesStream.

(** Wherever a valid frame [f] is in the stream, whatever is around it and however little follows:
    it is returned, with all earlier messages before it; or a returned frame extends over its first byte; or
    it is held back: from some byte before it the stream looks like a frame that is longer than
    what is left of the stream, and everything returned is from before that byte. *)
Theorem C09_every_frame : forall chunks p f q,
  Forall bytes_ok chunks -> concat chunks = p ++ f ++ q -> valid_frame f ->
  exists st ms, feed framer_init chunks = Ok (st, ms) /\
  ((exists ms1 ms2, ms = ms1 ++ f :: ms2 /\ embedded ms1 p) \/
   (exists a g b, concat chunks = a ++ g ++ b /\ In g ms /\ zlen a < zlen p < zlen a + zlen g) \/
   (exists a r, concat chunks = a ++ r /\ zlen a < zlen p /\ pending r /\ embedded ms a)).
Proof.
  intros chunks p f q HF E Vf. destruct (feed_reference chunks HF) as (st & segs & rest & E' & S & _).
  exists st, (frames_of segs). split; [exact E'|].
  pose proof (scans_bytes _ _ _ S) as SB.
  destruct (scans_finds _ _ _ S p f q E Vf) as [(s1 & s2 & -> & Hs)|[(s1 & g & s2 & -> & Hs)|(Hs & Pd)]].
  - left. exists (frames_of s1), (frames_of s2). rewrite frames_of_app. split; [reflexivity|].
    rewrite <- Hs. eapply embedded_seg_bytes; eauto.
  - right. left. exists (seg_bytes s1), g, (seg_bytes s2 ++ rest). split; [|split; [|exact Hs]].
    + rewrite SB. unfold seg_bytes. rewrite flat_map_app. cbn [flat_map]. now rewrite <- !app_assoc.
    + rewrite frames_of_app. apply in_or_app. right. left. reflexivity.
  - right. right. exists (seg_bytes segs), rest. split; [exact SB|]. split; [exact Hs|]. split; [exact Pd|].
    clear. induction segs as [|x l IH]; [constructor|]. unfold frames_of, seg_bytes in *. cbn [flat_map]. destruct x as [b|g]; cbn [app].
    + inversion IH as [s E1|g m ms s H E1]; [constructor|]. apply (embedded_cons (b :: g) m). exact H.
    + apply (embedded_cons [] g). exact IH.
Qed.
Print Assumptions C09_every_frame.

(** So nothing is held back from a stream of which no tail could be the beginning of a longer frame:
    then every valid frame is returned, or a returned frame extends over its first byte. *)
Theorem C09_complete : forall chunks p f q,
  Forall bytes_ok chunks -> concat chunks = p ++ f ++ q -> valid_frame f ->
  (forall a r, p = a ++ r -> r <> [] -> ~ pending (r ++ f ++ q)) ->
  exists st ms, feed framer_init chunks = Ok (st, ms) /\
  ((exists ms1 ms2, ms = ms1 ++ f :: ms2 /\ embedded ms1 p) \/
   (exists a g b, concat chunks = a ++ g ++ b /\ In g ms /\ zlen a < zlen p < zlen a + zlen g)).
Proof.
  intros chunks p f q HF E Vf N. destruct (C09_every_frame chunks p f q HF E Vf) as (st & ms & R & [A|[B|(a & r & X & L & P & _)]]).
  - exists st, ms. auto.
  - exists st, ms. auto.
  - exfalso. rewrite E in X. destruct (app_eq_split _ _ _ _ X) as [(e & Ea & _)|(e & Ne & Ep & Er)].
    + rewrite Ea, zlen_app in L. pose proof (zlen_nonneg e). lia.
    + apply (N a e Ep Ne). now rewrite <- Er.
Qed.
Print Assumptions C09_complete.

(** The third case is met by the stream of [C09_end_of_file_refuted]; the condition of [C09_complete] by
    a frame behind bytes none of which is 0xD3. *)
Example C09_held_back : exists a r, [0xD3; 0x03; 0xFF] ++ sample_1005 = a ++ r /\ zlen a < zlen [0xD3; 0x03; 0xFF] /\ pending r.
Proof.
  exists [], ([0xD3; 0x03; 0xFF] ++ sample_1005). split; [reflexivity|]. split; [vm_compute; reflexivity|].
  split; [discriminate|]. exists (repeat 0 (Z.to_nat (1026 - zlen sample_1005))). split; [vm_compute; discriminate|].
  exists 3, 255, (sample_1005 ++ repeat 0 (Z.to_nat (1026 - zlen sample_1005))). split; [reflexivity|]. split; [lia|]. split; [lia|]. vm_compute. reflexivity.
Qed.
Example C09_complete_nonvacuous : forall a r, [1; 2; 3] = a ++ r -> r <> [] -> ~ pending (r ++ sample_1005 ++ [0xD3; 0]).
Proof.
  intros a r E N (_ & e & _ & h1 & h2 & body & Q & _). destruct r as [|x r]; [congruence|]. cbn [app] in Q. injection Q as -> _.
  assert (I : In 211 [1; 2; 3]) by (rewrite E; apply in_or_app; right; now left). cbn in I. intuition discriminate.
Qed.
