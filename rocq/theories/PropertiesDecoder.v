(** * PropertiesDecoder: C12, dispatching of messages to sub-decoders and its statistics. *)
From Verif Require Import PyBase PyDict PyVal BitsModel BitsSpec BitsProofs TestData MsmModel EphModel BaseModel
  DecoderModel DecoderSpec DecoderProofs.
Local Open Scope string_scope.
Local Open Scope list_scope.
Local Open Scope Z_scope.

(** A history: messages are byte strings. *)
Definition messages_ok (h : list event) : Prop := forall msg, In (Decode msg) h -> bytes_ok msg.

(** The statistics a history must lead to: [tally h attempts errors]. *)
Inductive tally : list event -> Z -> Z -> Prop :=
| tally_nil : tally [] 0 0
| tally_register h io a e : tally h a e -> tally (h ++ [Register io]) a e
| tally_unserved h msg a e : tally h a e -> ~ served h msg -> tally (h ++ [Decode msg]) a e
| tally_decoded h msg o a e : tally h a e -> served h msg -> answer h msg = Ok (Some o) ->
    tally (h ++ [Decode msg]) (a + 1) e
| tally_failed h msg a e : tally h a e -> served h msg -> (forall o, answer h msg <> Ok (Some o)) ->
    tally (h ++ [Decode msg]) (a + 1) (e + 1).

Lemma decode_cases h msg : bytes_ok msg ->
  (served h msg /\ dec_attempts (after (h ++ [Decode msg])) = dec_attempts (after h) + 1 /\
   ((exists o, answer h msg = Ok (Some o) /\ dec_errors (after (h ++ [Decode msg])) = dec_errors (after h)) \/
    ((forall o, answer h msg <> Ok (Some o)) /\
     dec_errors (after (h ++ [Decode msg])) = dec_errors (after h) + 1))) \/
  (~ served h msg /\ answer h msg = Ok None /\ after (h ++ [Decode msg]) = after h).
Proof.
  intros B. rewrite after_snoc. cbn [after_event]. unfold dec_attempts, dec_errors.
  destruct (decode_step h msg B) as [(io & n & cls & f & I & N & C & F & A & R)|[S E]].
  - left. split; [exists io, n, cls; auto|]. split; [exact A|]. rewrite A.
    destruct R as [(o & _ & _ & R & S)|(_ & R & S)]; rewrite S.
    + left. exists o. split; [exact R|lia].
    + right. split; [|lia]. intros o. destruct R as [R|[_ R]]; rewrite R; discriminate.
  - right. unfold answer. rewrite E. auto.
Qed.

(** Whatever is registered and decoded, in whatever order: [dec_attempts] counts the messages
    some registered sub-decoder claims, [dec_errors] those of them that gave no object. *)
Theorem C12_statistics : forall h, messages_ok h ->
  tally h (dec_attempts (after h)) (dec_errors (after h)).
Proof.
  induction h as [|e h IH] using rev_ind; intros M; [constructor|].
  assert (Mh : messages_ok h) by (intros m I; apply M, in_or_app; now left). specialize (IH Mh).
  destruct e as [io|msg].
  - rewrite after_snoc. cbn [after_event]. unfold dec_attempts, dec_errors in *.
    destruct (acceptable_dec io) as [A|A]; [rewrite register_yes|rewrite register_no]; try exact A;
      cbn; now constructor.
  - assert (B : bytes_ok msg) by (apply M, in_or_app; right; now left).
    destruct (decode_cases h msg B) as [(S & A & [(o & R & E)|(R & E)])|(S & R & E)].
    + rewrite A, E. now apply tally_decoded with o.
    + rewrite A, E. now apply tally_failed.
    + rewrite E. now apply tally_unserved.
Qed.
Print Assumptions C12_statistics.

Theorem C12_statistics_bounds : forall h a e, tally h a e -> 0 <= e <= a.
Proof. induction 1; lia. Qed.
Print Assumptions C12_statistics_bounds.

(** An object is returned only if a sub-decoder in force claims the message, it is what that
    sub-decoder produced, and it is an instance of the class announced for the number. *)
Theorem C12_result : forall h msg o, bytes_ok msg -> answer h msg = Ok (Some o) ->
  exists io n cls f, in_force h io /\ has_number msg n /\ claims io n cls /\
    sd_decode io = Some f /\ f msg = Ok (Some o) /\ isinstance (Some o) cls = true.
Proof.
  intros h msg o B R. destruct (decode_step h msg B) as [(io & n & cls & f & I & N & C & F & _ & X)|[_ E]].
  - exists io, n, cls, f. do 4 (split; [assumption|]). destruct X as [(o' & F' & S & R' & _)|(_ & R' & _)].
    + rewrite R in R'. injection R' as <-. now split.
    + rewrite R in R'. destruct R' as [R'|[_ R']]; discriminate.
  - unfold answer in R. rewrite E in R. discriminate.
Qed.
Print Assumptions C12_result.

(** And no object is lost: if exactly one sub-decoder in force claims the message and it
    produces an object of the announced class, that object is returned. *)
Theorem C12_no_loss : forall h msg io n cls f o, bytes_ok msg ->
  in_force h io -> has_number msg n -> claims io n cls ->
  (forall io' cls', in_force h io' -> claims io' n cls' -> io' = io) ->
  sd_decode io = Some f -> f msg = Ok (Some o) -> isinstance (Some o) cls = true ->
  answer h msg = Ok (Some o).
Proof.
  intros h msg io n cls f o B I N C U F R S.
  destruct (decode_step h msg B) as [(io' & n' & cls' & f' & I' & N' & C' & F' & _ & X)|[NS _]].
  - rewrite <- (has_number_fun _ _ _ N N') in C'. pose proof (U _ _ I' C') as ->.
    rewrite F in F'. injection F' as <-. destruct C as [C _], C' as [C' _]. rewrite C in C'. injection C' as <-.
    destruct X as [(o' & R' & _ & A & _)|(X & _)]; [congruence|]. rewrite (X _ R) in S. discriminate.
  - destruct NS. exists io, n, cls. auto.
Qed.
Print Assumptions C12_no_loss.

(** The only thing that leaves [decode] as an exception is a keyboard interrupt. *)
Theorem C12_never_raises : forall h msg e, bytes_ok msg -> answer h msg = Err e ->
  e = EKeyboard /\ exists io f, in_force h io /\ sd_decode io = Some f /\ f msg = Err EKeyboard.
Proof.
  intros h msg e B R. destruct (decode_step h msg B) as [(io & n & cls & f & I & N & C & F & _ & X)|[_ E]].
  - destruct X as [(o & _ & _ & R' & _)|(_ & [R'|[K R']] & _)]; [congruence..|].
    rewrite R in R'. injection R' as ->. split; [reflexivity|]. exists io, f. auto.
  - unfold answer in R. rewrite E in R. discriminate.
Qed.
Print Assumptions C12_never_raises.

(** Registration is refused exactly for sub-decoders that cannot decode anything. *)
Theorem C12_registration : forall h io,
  (snd (register_decoder (after h) io) = true <-> acceptable io) /\
  (in_force (h ++ [Register io]) io <-> acceptable io \/ in_force h io) /\
  (forall s i, sget (d_decoders (after h)) s = Some i <-> in_force h i /\ sd_subset i = s).
Proof.
  intros h io. split; [|split].
  - destruct (acceptable_dec io) as [A|A]; [rewrite register_yes by exact A|rewrite register_no by exact A]; cbn;
      split; auto; discriminate.
  - rewrite in_force_register. destruct (acceptable_dec io); intuition.
  - apply table_force.
Qed.
Print Assumptions C12_registration.

(** ** The sub-decoders the program registers *)

(** Only standard sub-decoders, all of the same mode, are ever registered. *)
Definition standard_history (bare : bool) (h : list event) : Prop :=
  forall io, In (Register io) h -> standard bare io.

Lemma force_registered h io : in_force h io -> In (Register io) h.
Proof. intros (b & a & -> & _). apply in_or_app. right. now left. Qed.

(** For every byte string, [decode] returns None or an object of exactly the class announced
    for the message number. *)
Theorem C12_standard : forall bare h msg, standard_history bare h -> bytes_ok msg ->
  answer h msg = Ok None \/
  exists o n, answer h msg = Ok (Some o) /\ has_number msg n /\ announced bare n = Some (class_of o).
Proof.
  intros bare h msg S B. destruct (decode_step h msg B) as [(io & n & cls & f & I & N & C & F & _ & X)|[_ E]].
  - pose proof (S _ (force_registered _ _ I)) as St. pose proof (number_getbitu _ _ B N) as G.
    destruct X as [(o & R & Is & A & _)|(_ & A & _)].
    + right. exists o, n. split; [exact A|]. split; [exact N|].
      rewrite (std_class bare io msg n cls f o St G C F R Is). eapply std_announced; [exact St|apply C].
    + left. destruct A as [A|[K _]]; [exact A|].
      destruct (std_total bare io msg n St G) as (f' & r & F' & R). congruence.
  - left. unfold answer. now rewrite E.
Qed.
Print Assumptions C12_standard.

(** With all four sub-decoders registered, the messages counted are exactly those whose number
    is in the documented list. *)
Theorem C12_standard_served : forall bare h msg, standard_history bare h ->
  (forall io, standard bare io -> In (Register io) h) ->
  (served h msg <-> exists n, has_number msg n /\ announced bare n <> None).
Proof.
  intros bare h msg S A. split.
  - intros (io & n & cls & I & N & C). exists n. split; [exact N|].
    rewrite (std_announced bare io n cls (S _ (force_registered _ _ I)) (proj1 C)). discriminate.
  - intros (n & N & E). destruct (announced bare n) as [cls|] eqn:En; [|congruence].
    destruct (announced_std bare n cls En) as (io & St & C). exists io, n, cls.
    split; [|now split]. specialize (A io St).
    assert (Ac : forall io', standard bare io' -> acceptable io').
    { intros io' [<-|[<-|[<-|[<-|[]]]]]; split; discriminate. }
    assert (U : forall io' io'', standard bare io' -> standard bare io'' -> sd_subset io' = sd_subset io'' -> io' = io'').
    { intros io' io'' [<-|[<-|[<-|[<-|[]]]]] [<-|[<-|[<-|[<-|[]]]]]; cbn; congruence || reflexivity. }
    clear - A Ac U S St. induction h as [|e h IH] using rev_ind; [destruct A|].
    assert (Sh : standard_history bare h) by (intros i I; apply S, in_or_app; now left).
    destruct e as [i|m].
    + apply in_force_register. assert (Si : standard bare i) by (apply S, in_or_app; right; now left).
      apply in_app_or in A. destruct A as [A|[A|[]]].
      * destruct (String.eqb_spec (sd_subset io) (sd_subset i)) as [E|E].
        -- left. split; [now apply Ac|]. now apply U.
        -- right. split; [now apply IH|auto].
      * injection A as ->. left. split; [now apply Ac|reflexivity].
    + apply in_force_decode. apply IH; [exact Sh|]. apply in_app_or in A. destruct A as [A|[A|[]]]; [exact A|discriminate].
Qed.
Print Assumptions C12_standard_served.

(** The history of a JSON conversion of three messages: an ephemeris, a message of an unknown
    type, a station message with a wrong length. *)
Definition sample_history : list event :=
  [Register (sub_msm4567 false); Register (sub_msm123 false); Register (sub_eph false); Register (sub_base false);
   Decode sample_1005; Decode [0xD3; 0; 2; 0xFF; 0xF0; 0; 0; 0]; Decode (removelast sample_1006)].
Example C12_nonvacuous :
  messages_ok sample_history /\ standard_history false sample_history /\
  dec_attempts (after sample_history) = 2 /\ dec_errors (after sample_history) = 1 /\
  (exists o, answer sample_history sample_1005 = Ok (Some o) /\ class_of o = "BaseRP") /\
  (forall io, standard false io -> In (Register io) sample_history).
Proof.
  split; [|split; [|split; [|split; [|split]]]].
  - intros m I. apply bytes_okb_ok.
    repeat (destruct I as [I|I]; [try discriminate; injection I as <-; vm_compute; reflexivity|]). destruct I.
  - intros io I. repeat (destruct I as [I|I]; [try discriminate; injection I as <-; cbn; tauto|]). destruct I.
  - vm_compute. reflexivity.
  - vm_compute. reflexivity.
  - eexists. vm_compute. split; reflexivity.
  - intros io [<-|[<-|[<-|[<-|[]]]]]; cbn; tauto.
Qed.

(** A sub-decoder that returns an object of the wrong class: an error, not an answer. *)
Example C12_wrong_class :
  let bad := {| sd_subset := "EPH"; sd_spec := eph_spec; sd_actual := eph_msgList;
                sd_decode := Some (fun _ => Ok (Some (OPy (new_eph "EphGPS")))) |} in
  let h := [Register bad] in
  let msg := [0xD3; 0; 2; 0x3F; 0xC0; 0; 0; 0] (* 1020 *) in
  answer h msg = Ok None /\ dec_errors (after (h ++ [Decode msg])) = 1.
Proof. vm_compute. split; reflexivity. Qed.

(** ** Short frames.  The number of a frame with a payload of less than two bytes is taken
    from its checksum: two frames with the same (empty) payload get different numbers. *)
Theorem C44_number_of_tiny_frame_refuted :
  exists payload crc1 crc2, zlen payload <= 1 /\ bytes_ok payload /\ bytes_ok crc1 /\ bytes_ok crc2 /\
    zlen crc1 = 3 /\ zlen crc2 = 3 /\
    FramerModel.mnum ([0xD3; 0; zlen payload] ++ payload ++ crc1) <>
    FramerModel.mnum ([0xD3; 0; zlen payload] ++ payload ++ crc2).
Proof.
  exists [], [0x3E; 0xD0; 0], [0; 0; 0].
  repeat (split; [first [apply bytes_okb_ok; reflexivity | vm_compute; congruence]|]). vm_compute. discriminate.
Qed.
Print Assumptions C44_number_of_tiny_frame_refuted.
