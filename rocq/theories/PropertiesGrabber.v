(** * PropertiesGrabber: C69, the capturing of test data. *)
From Verif Require Import PyBase PyDict PyVal BitsModel BitsSpec CrcSpec FramerModel FramerSpec FramerProofs FramerTheorems
  TestData DecoderModel DecoderSpec GrabberModel GrabberSpec GrabberProofs.
Local Open Scope string_scope.
Local Open Scope list_scope.
Local Open Scope Z_scope.

Lemma other_mode can mode st g d msgs : ~ In mode MODES -> Forall bytes_ok msgs ->
  decode_all can (Some mode) st g d msgs = decode_all can None st g d msgs.
Proof.
  intros N B.
  assert (X : forall m, In m MODES -> String.eqb mode m = false).
  { intros m I. apply String.eqb_neq. intros ->. exact (N I). }
  assert (T : forall g, table g mode = []).
  { intros g'. unfold table. now rewrite (X "EPH"), (X "BASE"), (X "MSM7"), (X "MSM5") by (unfold MODES, In; auto). }
  revert st. induction B as [|m r Bm B IH]; intros st; [reflexivity|]. cbn [decode_all decode_grab].
  rewrite (mnum_number m Bm). unfold save. rewrite T.
  destruct (number_of m) as [n|]; unfold zget; cbn [dget]; destruct (decode st m) as [a st']; now rewrite IH.
Qed.

(** With the capturing on, whatever messages are decoded and whatever the current directory
    contains: the file of every number of the mode holds, byte for byte and in order, the messages
    the plan keeps (and is what it was when there are none); no other file is touched; and what the
    decoder answers, and its statistics, are the same as with the capturing off. *)
Theorem C69_capture : forall can st d mode msgs, Forall bytes_ok msgs ->
  (forall n, plan mode n <> None -> can (file_of n) = true) ->
  exists answers st' g' d',
    decode_all can (Some mode) st grabber_init d msgs = (answers, st', g', d') /\
    (forall n, plan mode n <> None ->
       d' (file_of n) = match kept mode n msgs with [] => d (file_of n) | l => Some (concat l) end) /\
    (forall x, (forall n, plan mode n <> None -> x <> file_of n) -> d' x = d x) /\
    decode_all can None st grabber_init d msgs = (answers, st', grabber_init, d).
Proof.
  intros can st d mode msgs B C. destruct (mode_cases mode) as [M|[T P]].
  - destruct (tables_ok mode M) as (NE & ND & NN & Fr).
    destruct (run_ok can st d mode msgs NE ND NN Fr) as (l & st' & g' & d' & E & (_ & Hf & Hx) & _ & O); [|exact B|].
    { intros n s G. pose proof (table_plan mode n) as X. rewrite G in X. destruct X as [X ->]. apply C. congruence. }
    exists l, st', g', d'. split; [exact E|]. split; [|split; [|apply O]].
    + intros n N. pose proof (table_plan mode n) as X. destruct (zget (table grabber_init mode) n) as [s|] eqn:G; [|congruence].
      destruct X as [X F]. specialize (Hf n s G). rewrite F in Hf. rewrite Hf. unfold file_after, keep, kept. now rewrite X.
    + intros x N. apply Hx. intros I. apply In_names in I as (n & P & ->). exact (N n P eq_refl).
  - assert (N : ~ In mode MODES).
    { intros I. destruct (tables_ok mode I) as [NE _]. congruence. }
    rewrite (other_mode can mode st grabber_init d msgs N B), decode_all_off.
    destruct (decode_all can None st grabber_init d msgs) as [[[l st'] g'] d'].
    exists l, st', grabber_init, d. split; [reflexivity|]. split; [|split; reflexivity].
    intros n X. now rewrite P in X.
Qed.
Print Assumptions C69_capture.

(** A captured file is good test data: read back in pieces of any size, it gives exactly the
    messages kept, and no parsing error. *)
Theorem C69_read_back : forall can st d mode msgs n, Forall valid_frame msgs ->
  (forall k, plan mode k <> None -> can (file_of k) = true) -> kept mode n msgs <> [] ->
  forall answers st' g' d', decode_all can (Some mode) st grabber_init d msgs = (answers, st', g', d') ->
  exists content, d' (file_of n) = Some content /\
    forall chunks, concat chunks = content ->
    exists fr, feed framer_init chunks = Ok (fr, kept mode n msgs) /\ fr_errs fr = 0.
Proof.
  intros can st d mode msgs n V C K answers st' g' d' E.
  assert (B : Forall bytes_ok msgs) by (apply (Forall_impl _ (fun f => valid_frame_bytes f)); exact V).
  destruct (C69_capture can st d mode msgs B C) as (a & s & g & d1 & E1 & F & _ & _).
  rewrite E in E1. injection E1 as -> -> -> ->.
  assert (P : plan mode n <> None) by (unfold kept in K; destruct (plan mode n); [discriminate|congruence]).
  exists (concat (kept mode n msgs)). split.
  - rewrite (F n P). destruct (kept mode n msgs); [congruence|reflexivity].
  - intros chunks Ec.
    assert (Vk : Forall valid_frame (kept mode n msgs)).
    { apply Forall_forall. intros f I. apply (proj1 (Forall_forall _ _) V). unfold kept in I.
      destruct (plan mode n) as [[sk tk]|]; [|destruct I].
      apply (incl_filter (fun m => match number_of m with Some k => k =? n | None => false end) msgs).
      change (In f (with_number n msgs)). revert I. generalize (with_number n msgs) as l. intros l I.
      rewrite <- (firstn_skipn sk l). apply in_or_app. right.
      rewrite <- (firstn_skipn tk (skipn sk l)). apply in_or_app. now left. }
    destruct (feed_padded (map (fun f => ([], f)) (kept mode n msgs)) [] chunks) as (fr & Ef & Ee).
    + apply Forall_forall. intros gf I. apply in_map_iff in I as (f & <- & I). cbn [fst snd].
      split; [split; [constructor|intros []]|]. exact (proj1 (Forall_forall _ _) Vk f I).
    + split; [constructor|intros []].
    + rewrite Ec. unfold padded_stream. rewrite app_nil_r, map_map. cbn [fst snd app]. now rewrite map_id.
    + exists fr. rewrite map_map in Ef. cbn [snd] in Ef. rewrite map_id in Ef. split; [exact Ef|]. rewrite Ee.
      unfold inner_gaps. destruct (kept mode n msgs) as [|k0 r]; [reflexivity|]. cbn [map tl].
      clear. induction r as [|x r IH]; [reflexivity|]. exact IH.
Qed.
Print Assumptions C69_read_back.

(** The test streams made from three messages: all four give the three messages; the two bytes put
    between the messages of the second stream are counted as two parsing errors, noise before and
    after the messages is not counted. *)
Theorem C69_test_streams : forall m0 m1 m2 name content chunks,
  valid_frame m0 -> valid_frame m1 -> valid_frame m2 ->
  In (name, content) (fancy_test_data m0 m1 m2) -> concat chunks = content ->
  exists fr, feed framer_init chunks = Ok (fr, [m0; m1; m2]) /\
    fr_errs fr = if String.eqb name "reference-3msg-interleaved.rtcm3" then 2 else 0.
Proof.
  intros m0 m1 m2 name content chunks V0 V1 V2 I E.
  assert (NA : no_preamble abra).
  { split; [|cbn; intuition discriminate]. apply bytes_okb_ok. reflexivity. }
  assert (N1 : no_preamble [45]).
  { split; [|cbn; intuition discriminate]. apply bytes_okb_ok. reflexivity. }
  assert (N0 : no_preamble []) by (split; [constructor|intros []]).
  assert (Go : forall a b c e, no_preamble a -> no_preamble b -> no_preamble c -> no_preamble e ->
    content = a ++ m0 ++ b ++ m1 ++ c ++ m2 ++ e ->
    exists fr, feed framer_init chunks = Ok (fr, [m0; m1; m2]) /\ fr_errs fr = inner_gaps [(a, m0); (b, m1); (c, m2)]).
  { intros a b c e Na Nb Nc Ne Ec. apply (feed_padded [(a, m0); (b, m1); (c, m2)] e chunks).
    - repeat (constructor; [split; assumption|]). constructor.
    - exact Ne.
    - rewrite E, Ec. unfold padded_stream. cbn [map concat fst snd]. now rewrite <- !app_assoc. }
  destruct I as [I|[I|[I|[I|[]]]]]; apply pair_equal_spec in I as (<- & <-).
  - apply (Go [] [] [] []); auto. cbn [app]. now rewrite app_nil_r.
  - apply (Go [] [45] [45] []); auto. cbn [app]. now rewrite app_nil_r.
  - apply (Go abra [] [] []); auto. cbn [app]. now rewrite app_nil_r.
  - apply (Go [] [] [] abra); auto.
Qed.
Print Assumptions C69_test_streams.

(** Capturing does change what is decoded when a file cannot be created: the message is lost
    without being counted. *)
Theorem C69_unwritable_refuted : exists can st d msgs,
  Forall bytes_ok msgs /\
  fst (fst (fst (decode_all can (Some "BASE") st grabber_init d msgs))) = [Ok None] /\
  dec_attempts (snd (fst (fst (decode_all can (Some "BASE") st grabber_init d msgs)))) = 0 /\
  exists o, fst (fst (fst (decode_all can None st grabber_init d msgs))) = [Ok (Some o)] /\
    class_of o = "BaseRP".
Proof.
  exists (fun _ => false), (fst (register_decoder decoder_init (sub_base false))), (fun _ => None), [sample_1005].
  split; [constructor; [|constructor]; apply bytes_okb_ok; vm_compute; reflexivity|].
  split; [vm_compute; reflexivity|]. split; [vm_compute; reflexivity|].
  eexists. split; vm_compute; reflexivity.
Qed.
Print Assumptions C69_unwritable_refuted.

(** Sixteen messages, of which one is kept: the eleventh of its number. *)
Example C69_nonvacuous :
  let msgs := repeat sample_1077 12 ++ [sample_1005; sample_1005] in
  Forall valid_frame msgs /\ plan "MSM7" 1077 = Some (10, 1)%nat /\
  kept "MSM7" 1077 msgs = [sample_1077] /\ kept "BASE" 1005 msgs = [sample_1005] /\ kept "MSM7" 1005 msgs = [] /\
  file_of 1077 = "msg1077.rtcm3".
Proof.
  split; [|repeat split; vm_compute; reflexivity].
  assert (V : valid_frame sample_1077) by (apply valid_frame_check; vm_compute; reflexivity).
  assert (W : valid_frame sample_1005) by (apply valid_frame_check; vm_compute; reflexivity).
  cbn [repeat app]. repeat (constructor; [assumption|]). constructor.
Qed.
