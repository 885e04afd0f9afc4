(** * PropertiesModes: C75 - the output formats agree with each other. *)
From Verif Require Import PyBase PyDict PyFloat PyVal BitsModel MessageSpec FramerModel FramerSpec FramerProofs FramerTheorems PropertiesStream MsmModel MsmSpec
  TestData DecoderModel DecoderSpec DecoderProofs PropertiesDecoder
  JsonModel JsonSpec JsonFileSpec JsonFiles JsonDecoded PropertiesJson MargoModel MargoSpec MargoProofs MargoFiles PropertiesMargo
  PrinterModel PrinterSpec PrinterProofs PropertiesPrinter MainModel MainSpec MainProofs NamesSpec NamesProofs PropertiesMain PropertiesFiles PiecesSpec
  TransmissionSpec TransmissionProofs PropertiesPieces.
From Verif Require DocumentsProofs LogFrames EphModel BaseModel.
Local Open Scope string_scope.
Local Open Scope list_scope.
Local Open Scope Z_scope.

Lemma same_observations frames : Forall valid_frame frames ->
  observations "MARGO" (objects "MARGO" frames) = observations "JARGO" (objects "JARGO" frames).
Proof.
  intros V. assert (X : exists msgs, Forall2 arrives frames msgs).
  { induction V as [|f l V1 V2 (msgs & IH)]; [exists []; constructor|].
    destruct (arrives_total "MARGO" f (or_introl eq_refl) V1) as (o & A). exists (o :: msgs). now constructor. }
  destruct X as (msgs & A). rewrite (observations_sent "MARGO" (or_introl eq_refl) frames msgs V A).
  now rewrite (observations_sent "JARGO" (or_intror eq_refl) frames msgs V A).
Qed.

Lemma same_margo ctl g p sgn t objs ha hb sa sb : controls_ok ctl -> known g sgn -> history_of objs ha -> history_of objs hb ->
  print_all ctl margo_init ha = (sa, Ok tt) -> print_all ctl margo_init hb = (sb, Ok tt) ->
  sget (mg_files sa) (obs_path g p sgn t) = sget (mg_files sb) (obs_path g p sgn t).
Proof.
  intros C K HA HB PA PB. rewrite <- (app_nil_r objs) in HB.
  assert (HN : history_of [] []) by (split; [reflexivity|constructor]).
  pose proof (joined_margo ctl g p sgn t objs [] ha [] hb sa margo_init sb C K HA HN HB PA eq_refl PB) as J. cbv zeta in J.
  change (sget (mg_files margo_init) (obs_path g p sgn t)) with (@None (list Z)) in J. unfold joined_obs in J.
  destruct (sget (mg_files sa) _); symmetry; exact J.
Qed.

Definition run (ord : list (subprinter world) -> list (subprinter world)) (c : converter world) (content : list Z) :=
  decode_rtcm_file ord no_faults (regular_file content) (started c).
Definition product ord c content (path : string) : option (list Z) := sget (output_files (r_world (fst (run ord c content)))) path.

(** MARGO and JARGO write the same observation files. *)
Theorem C75_observations : forall env ctl c c' ord content g p sgn t,
  factory "MARGO" true env ctl = Ok (Some c) -> factory "JARGO" true env ctl = Ok (Some c') ->
  walk ord -> controls_ok (box_margo ctl) -> (forall n x, env n x = true) -> bytes_ok content -> known g sgn ->
  product ord c content (obs_path g p sgn t) = product ord c' content (obs_path g p sgn t).
Proof.
  intros env ctl c c' ord content g p sgn t F F' O C EN B K. destruct (scans_exists content B) as (segs & rest & S).
  unfold product, run.
  destruct (decode_rtcm_file ord no_faults (regular_file content) (started c)) as [s r] eqn:D.
  destruct (decode_rtcm_file ord no_faults (regular_file content) (started c')) as [s' r'] eqn:D'. cbn [fst].
  destruct (run_files _ env ctl c ord content _ _ s r F O C B S EN D) as (_ & OA & _).
  destruct (run_files _ env ctl c' ord content _ _ s' r' F' O C B S EN D') as (_ & OB & _).
  destruct (margo_run _ env ctl c ord content _ _ s r F O C B S EN D) as (h & m & H & P & W).
  destruct (margo_run _ env ctl c' ord content _ _ s' r' F' O C B S EN D') as (h' & m' & H' & P' & W').
  rewrite OA, OB, W, W'. rewrite <- (same_observations _ (scans_frames_valid _ _ _ S)) in H'.
  exact (same_margo _ g p sgn t _ h h' m m' C K H H' P P').
Qed.
Print Assumptions C75_observations.

Lemma same_numbered num frames : Forall valid_frame frames -> is_msm num = false ->
  numbered "JARGO" num (objects "JARGO" frames) = numbered "JSON" num (objects "JSON" frames).
Proof.
  intros V N. change (objects "JARGO" frames) with (objects "JSON" frames).
  pose proof (fun o => numbered_class "JSON" num frames o V) as K. change (is_bare "JSON") with false in K.
  unfold numbered in *. induction (objects "JSON" frames) as [|o l IH]; [reflexivity|]. cbn [filter] in *.
  assert (FJ : same_family (family_of "JSON" o) JsonFiles = true) by (unfold family_of; cbn; rewrite Bool.andb_false_r; reflexivity).
  rewrite FJ in *. cbn [andb] in *. destruct (match number_of o with Some n => n =? num | None => false end) eqn:E.
  - assert (class_of o <> "ObservablesMSM") as X.
    { intros Q. specialize (K o (or_introl eq_refl)). unfold announced in K. rewrite N, Q in K.
      repeat match type of K with (if ?b then _ else _) = _ => destruct b; [discriminate K|] end. discriminate K. }
    assert (FA : same_family (family_of "JARGO" o) JsonFiles = true).
    { unfold family_of. destruct (String.eqb_spec (class_of o) "ObservablesMSM"); [contradiction|reflexivity]. }
    rewrite FA. cbn [andb]. f_equal. apply IH. intros o' I. apply K. now right.
  - rewrite Bool.andb_false_r. apply IH. exact K.
Qed.
Lemma json_msm_none num frames : Forall valid_frame frames -> is_msm num = true -> numbered "JARGO" num (objects "JARGO" frames) = [].
Proof.
  intros V N. destruct (numbered "JARGO" num (objects "JARGO" frames)) as [|o l] eqn:E; [reflexivity|]. exfalso.
  assert (I : In o (numbered "JARGO" num (objects "JARGO" frames))) by (rewrite E; now left).
  pose proof (numbered_class "JARGO" num frames o V I) as K. unfold announced in K. rewrite N in K. cbn in K.
  unfold numbered in I. apply filter_In in I. destruct I as (_ & I). apply andb_true_iff in I as (I & _).
  unfold family_of in I. assert (class_of o = "ObservablesMSM") as Q by congruence. rewrite Q in I. discriminate I.
Qed.

(** JARGO and JSON write the same files of ephemerides and base station data. *)
Theorem C75_other_messages : forall env ctl c c' ord content num sub name,
  factory "JARGO" true env ctl = Ok (Some c) -> factory "JSON" true env ctl = Ok (Some c') ->
  walk ord -> controls_ok (box_margo ctl) -> (forall n x, env n x = true) -> bytes_ok content ->
  json_place num sub name -> sub = "EPH" \/ sub = "BASE" ->
  same_document (product ord c content (sub ++ "/" ++ name)%string) (product ord c' content (sub ++ "/" ++ name)%string).
Proof.
  intros env ctl c c' ord content num sub name F F' O C EN B PL SU. destruct (scans_exists content B) as (segs & rest & S).
  assert (N : is_msm num = false).
  { destruct PL as [k tag t I T|n tag I|n w I].
    - exfalso. destruct SU as [SU|SU]; (assert (T' : t = 1 \/ t = 2 \/ t = 3 \/ t = 4 \/ t = 5 \/ t = 6 \/ t = 7) by lia);
        repeat (destruct T' as [->|T']); try (subst t); discriminate SU.
    - cbn [In] in I. repeat (destruct I as [I|I]; [injection I as <- <-; reflexivity|]). destruct I.
    - cbn [In] in I. repeat (destruct I as [I|I]; [injection I as <- <-; reflexivity|]). destruct I. }
  destruct (place_spec _ _ _ PL) as (e & E & <- & <-). change (js_dir e ++ "/" ++ js_file e)%string with (json_path e).
  unfold product, run.
  destruct (decode_rtcm_file ord no_faults (regular_file content) (started c)) as [s r] eqn:D.
  destruct (decode_rtcm_file ord no_faults (regular_file content) (started c')) as [s' r'] eqn:D'. cbn [fst].
  destruct (run_files _ env ctl c ord content _ _ s r F O C B S EN D) as (_ & _ & JA & _).
  destruct (run_files _ env ctl c' ord content _ _ s' r' F' O C B S EN D') as (_ & _ & JB & _).
  specialize (JA num e E). specialize (JB num e E). rewrite (same_numbered num _ (scans_frames_valid _ _ _ S) N) in JA.
  destruct (numbered "JSON" num _) as [|x l].
  - rewrite JA, JB. exact Logic.I.
  - destruct JA as (ta & -> & RA). destruct JB as (tb & -> & RB). cbn [same_document]. eexists. split; [exact RA|exact RB].
Qed.
Print Assumptions C75_other_messages.

(** JARGO adds nothing of its own: its files are the observation files of MARGO and the files of
    ephemerides and base station data of JSON, and it has all of these.  MARGO has no other files. *)
Theorem C75_union : forall env ctl cm ca cj ord content path,
  factory "MARGO" true env ctl = Ok (Some cm) -> factory "JARGO" true env ctl = Ok (Some ca) -> factory "JSON" true env ctl = Ok (Some cj) ->
  walk ord -> controls_ok (box_margo ctl) -> (forall n x, env n x = true) -> bytes_ok content ->
  (product ord ca content path <> None <->
   product ord cm content path <> None \/
   (product ord cj content path <> None /\ exists num sub name, json_place num sub name /\ (sub = "EPH" \/ sub = "BASE") /\ path = (sub ++ "/" ++ name)%string)).
Proof.
  intros env ctl cm ca cj ord content path FM FA FJ O C EN B.
  assert (NM : forall num e, zget JSON_SPEC num = Some e -> product ord cm content (json_path e) = None).
  { intros num e E. destruct (scans_exists content B) as (segs & rest & S). unfold product, run.
    destruct (decode_rtcm_file ord no_faults (regular_file content) (started cm)) as [s r] eqn:D. cbn [fst].
    destruct (run_files _ env ctl cm ord content _ _ s r FM O C B S EN D) as (_ & _ & JA & _). specialize (JA num e E).
    destruct (numbered "MARGO" num (objects "MARGO" (frames_of segs))) as [|o l] eqn:Q; [exact JA|]. exfalso.
    assert (I : In o (numbered "MARGO" num (objects "MARGO" (frames_of segs)))) by (rewrite Q; now left).
    unfold numbered in I. apply filter_In in I. destruct I as (I & X). apply andb_true_iff in X as (X & _).
    destruct (objects_from _ _ _ (scans_frames_valid _ _ _ S) I) as (f & Vf & A).
    pose proof (DocumentsProofs.margo_class f o (valid_frame_bytes f Vf) A) as K. unfold family_of in X. rewrite K in X. discriminate X. }
  assert (PA : product ord ca content path <> None ->
     (exists num e, zget JSON_SPEC num = Some e /\ is_msm num = false /\ path = json_path e) \/ (exists g p sgn t, known g sgn /\ path = obs_path g p sgn t)).
  { destruct (scans_exists content B) as (segs & rest & S). unfold product, run.
    destruct (decode_rtcm_file ord no_faults (regular_file content) (started ca)) as [s r] eqn:D. cbn [fst].
    destruct (run_files _ env ctl ca ord content _ _ s r FA O C B S EN D) as (_ & _ & JA & PA). intros N.
    destruct (PA path N) as [(num & e & E & ->)|X]; [|now right]. left. exists num, e. split; [exact E|]. split; [|reflexivity].
    destruct (is_msm num) eqn:M; [|reflexivity]. specialize (JA num e E).
    rewrite (json_msm_none num _ (scans_frames_valid _ _ _ S) M) in JA. contradiction. }
  assert (PM : product ord cm content path <> None -> exists g p sgn t, known g sgn /\ path = obs_path g p sgn t).
  { intros N. assert (N' := N). revert N'. destruct (scans_exists content B) as (segs & rest & S). unfold product, run.
    destruct (decode_rtcm_file ord no_faults (regular_file content) (started cm)) as [s r] eqn:D. cbn [fst].
    destruct (run_files _ env ctl cm ord content _ _ s r FM O C B S EN D) as (_ & _ & _ & PM). intros N'.
    destruct (PM path N') as [(num & e & E & ->)|X]; [|exact X]. rewrite (NM num e E) in N. contradiction. }
  split.
  - intros N. destruct (PA N) as [(num & e & E & M & ->)|(g & p & sgn & t & K & ->)].
    + right. pose proof (spec_place num e E) as PL.
      assert (SU : js_dir e = "EPH" \/ js_dir e = "BASE").
      { revert M. clear - PL. intros M. destruct PL as [k tag t I T|n tag I|n w I]; [exfalso|now left|now right].
        assert (D : t = 1 \/ t = 2 \/ t = 3 \/ t = 4 \/ t = 5 \/ t = 6 \/ t = 7) by lia. cbn [In] in I.
        repeat (destruct I as [I|I]; [injection I as <- _; repeat (destruct D as [->|D]; [discriminate M|]); subst t; discriminate M|]). destruct I. }
      split.
      * pose proof (C75_other_messages env ctl ca cj ord content num _ _ FA FJ O C EN B PL SU) as SD.
        change (js_dir e ++ "/" ++ js_file e)%string with (json_path e) in SD. unfold same_document in SD.
        destruct (product ord ca content (json_path e)); [|contradiction]. destruct (product ord cj content (json_path e)); [discriminate|contradiction].
      * exists num, (js_dir e), (js_file e). split; [exact PL|]. split; [exact SU|reflexivity].
    + left. rewrite (C75_observations env ctl cm ca ord content g p sgn t FM FA O C EN B K). exact N.
  - intros [N|(N & num & sub & name & PL & SU & ->)].
    + destruct (PM N) as (g & p & sgn & t & K & ->). rewrite <- (C75_observations env ctl cm ca ord content g p sgn t FM FA O C EN B K). exact N.
    + pose proof (C75_other_messages env ctl ca cj ord content num _ _ FA FJ O C EN B PL SU) as SD. unfold same_document in SD.
      destruct (product ord ca content _); [discriminate|]. destruct (product ord cj content _); [contradiction|]. contradiction.
Qed.
Print Assumptions C75_union.

(** What can be decoded to physical units can be decoded. *)
Lemma bare_answer f o : bytes_ok f -> answer (map Register (decoders_of "JSON")) f = Ok (Some o) ->
  exists o', answer (map Register (decoders_of "JSON-B")) f = Ok (Some o').
Proof.
  intros B A. pose proof (mode_standard "JSON") as SJ. pose proof (mode_standard "JSON-B") as SB.
  change (is_bare "JSON") with false in SJ. change (is_bare "JSON-B") with true in SB.
  destruct (decode_step (map Register (decoders_of "JSON")) f B) as [(io & n & cls & fn & I & N & Cl & F & _ & X)|(_ & E)].
  2:{ unfold answer in A. rewrite E in A. discriminate A. }
  destruct X as [(o1 & R & _ & A1 & _)|(_ & [X|(_ & X)] & _)]; [|congruence..]. assert (o1 = o) as -> by congruence.
  destruct (decode_step (map Register (decoders_of "JSON-B")) f B) as [(io2 & n2 & cls2 & fn2 & I2 & N2 & Cl2 & F2 & _ & X)|(NS & _)].
  2:{ destruct NS. apply (C12_standard_served true _ f SB).
      - intros i [<-|[<-|[<-|[<-|[]]]]]; cbn; tauto.
      - exists n. split; [exact N|]. pose proof (std_announced false io n cls (SJ _ (force_registered _ _ I)) (proj1 Cl)) as AN.
        unfold announced in *. destruct (is_msm n); [discriminate|]. rewrite AN. discriminate. }
  rewrite (has_number_fun _ _ _ N2 N) in *. clear N2.
  pose proof (number_getbitu _ _ B N) as G. pose proof (SJ _ (force_registered _ _ I)) as St. pose proof (SB _ (force_registered _ _ I2)) as St2.
  destruct (LogFrames.std_story (fun _ _ => []) false io f n cls fn St G Cl F) as (H1 & _).
  destruct (LogFrames.std_story (fun _ _ => []) true io2 f n cls2 fn2 St2 G Cl2 F2) as (H2 & rs & _ & _ & ST).
  assert (AN2 : announced true n = Some cls2) by (exact (std_announced true io2 n cls2 St2 (proj1 Cl2))).
  destruct X as [(o2 & _ & _ & A2 & _)|(X & _)]; [now exists o2|]. exfalso.
  destruct ST as [(o' & R2 & K & _)|(e & R2 & _)].
  { specialize (X _ R2). assert (class_of o' = cls2) as <- by congruence. rewrite LogFrames.own_instance in X. discriminate X. }
  assert (SS : sd_subset io = sd_subset io2) by congruence. clear - St St2 SS F F2 R R2.
  assert (Y : exists o', fn2 f = Ok (Some o')); [|destruct Y; congruence].
  assert (MS : forall o, wrap_msm (decode_msm17 false f) = Ok (Some o) -> exists o', wrap_msm (decode_msm17 true f) = Ok (Some o')).
  { intros x W. unfold decode_msm17 in *. destruct (bare_decode f) as [b|e]; [eexists; reflexivity|destruct (is_exception e); discriminate W]. }
  destruct St as [<-|[<-|[<-|[<-|[]]]]]; destruct St2 as [<-|[<-|[<-|[<-|[]]]]]; try discriminate SS;
    cbn [sd_decode sub_msm4567 sub_msm123 sub_eph sub_base] in F, F2;
    injection F as <-; injection F2 as <-; [exact (MS _ R)|exact (MS _ R)|..].
  - unfold wrap_py, EphModel.subdecoder_eph, EphModel.eph_decode in *. destruct (EphModel.eph_get_msg_num f) as [z|e]; cbn [bind] in *;
      [|destruct (is_exception e); discriminate R].
    destruct (EphModel.eph_decode_bare f) as [x|e]; cbn [bind] in *; [eexists; reflexivity|destruct (is_exception e); discriminate R].
  - unfold wrap_py, BaseModel.subdecoder_base, BaseModel.base_decode in *. destruct (BaseModel.base_get_msg_num f) as [z|e]; cbn [bind] in *; [|discriminate R].
    destruct (BaseModel.base_decode_bare f) as [x|e]; cbn [bind] in *; [eexists; reflexivity|destruct (is_exception e); discriminate R].
Qed.

Lemma fewer_scaled num frames : Forall valid_frame frames ->
  (length (numbered "JSON" num (objects "JSON" frames)) <= length (numbered "JSON-B" num (objects "JSON-B" frames)))%nat.
Proof.
  intros V. induction V as [|f l V1 V2 IH]; [constructor|]. unfold numbered, objects in *. cbn [flat_map]. rewrite !filter_app, !app_length.
  destruct (answer (map Register (decoders_of "JSON")) f) as [[o|]|e] eqn:A; [|cbn [filter length]; lia..].
  destruct (bare_answer f o (valid_frame_bytes f V1) A) as (o' & A'). rewrite A'. cbn [filter].
  destruct (valid_transport f V1) as (payload & crc & T).
  destruct (C33_decoded_ok (sample_controls false) _ _ _ _ _ _ (mode_standard "JSON") T A) as (_ & n & N & NO).
  destruct (C33_decoded_ok (sample_controls false) _ _ _ _ _ _ (mode_standard "JSON-B") T A') as (_ & n' & N' & NO').
  rewrite NO, NO', (has_number_fun _ _ _ N' N).
  assert (X : forall m x, m = "JSON" \/ m = "JSON-B" -> same_family (family_of m x) JsonFiles = true).
  { intros m x [-> | ->]; unfold family_of; cbn; rewrite Bool.andb_false_r; reflexivity. }
  rewrite !X by tauto. cbn [andb]. destruct (n =? num); cbn [length]; lia.
Qed.

(** No message is shown in physical units only: the bare file of a message number has at least as
    many elements as the scaled one. *)
Theorem C75_bare : forall env ctl c c' ord content num sub name ty l,
  factory "JSON" true env ctl = Ok (Some c) -> factory "JSON-B" true env ctl = Ok (Some c') ->
  walk ord -> controls_ok (box_margo ctl) -> (forall n x, env n x = true) -> bytes_ok content -> json_place num sub name ->
  let path := (sub ++ "/" ++ name)%string in
  elements (product ord c content path) ty l ->
  exists ty' l', elements (product ord c' content path) ty' l' /\ (length l <= length l')%nat.
Proof.
  intros env ctl c c' ord content num sub name ty l F F' O C EN B PL path (text & ET & RT). destruct (scans_exists content B) as (segs & rest & S).
  unfold path in *. clear path. destruct (place_spec _ _ _ PL) as (e & E & <- & <-). change (js_dir e ++ "/" ++ js_file e)%string with (json_path e) in *.
  revert ET. unfold elements, product, run.
  destruct (decode_rtcm_file ord no_faults (regular_file content) (started c)) as [s r] eqn:D.
  destruct (decode_rtcm_file ord no_faults (regular_file content) (started c')) as [s' r'] eqn:D'. cbn [fst]. intros ET.
  destruct (run_files _ env ctl c ord content _ _ s r F O C B S EN D) as (_ & _ & JA & _).
  destruct (run_files _ env ctl c' ord content _ _ s' r' F' O C B S EN D') as (_ & _ & JB & _).
  specialize (JA num e E). specialize (JB num e E). pose proof (fewer_scaled num _ (scans_frames_valid _ _ _ S)) as FS.
  destruct (numbered "JSON" num _) as [|x m]; [congruence|]. destruct (numbered "JSON-B" num _) as [|y m']; [cbn [length] in FS; lia|].
  destruct JA as (ta & EA & RA). destruct JB as (tb & EB & RB). assert (ta = text) as -> by congruence.
  exists (JObj [(ustr "source_type", JStr (ustr (class_of y)))]), (map (json_of (box_json ctl)) (y :: m')).
  split; [exists tb; split; [exact EB|rewrite RB; reflexivity]|].
  rewrite RT in RA. assert (l = map (json_of (box_json ctl)) (x :: m)) as -> by (unfold document in RA; congruence).
  rewrite !map_length. exact FS.
Qed.
Print Assumptions C75_bare.

(** An observation message, an ephemeris and a base station message, in the four formats. *)
Definition sizes (mode : string) : list (string * Z) :=
  map (fun x => (fst x, zlen (snd x))) (output_files (r_world (fst (run (fun l => l) (sample_conv mode) (sample_1077 ++ sample_1019 ++ sample_1005))))).
Example C75_nonvacuous :
  bytes_ok (sample_1077 ++ sample_1019 ++ sample_1005) /\ known GPS "1C" /\
  json_place 1019 "EPH" "GPS-EPH-1019.json" /\ json_place 1005 "BASE" "RefPoint-1005.json" /\
  map (fun m => sget (sizes m) (obs_path GPS CodeRange "1C" MSM7)) modes = [Some 1569; None; None; Some 1569] /\
  map (fun m => sget (sizes m) "EPH/GPS-EPH-1019.json") modes = [None; Some 2291; Some 1559; Some 2291] /\
  map (fun m => sget (sizes m) "MSM7/GPS-MSM7-1077.json") modes = [None; Some 4327; Some 2881; None].
Proof.
  split; [apply bytes_okb_ok; vm_compute; reflexivity|]. split; [vm_compute; tauto|].
  split; [apply (place_eph 1019 "GPS"); cbn; tauto|]. split; [apply (place_base 1005 "RefPoint"); cbn; tauto|].
  split; [|split]; vm_compute; reflexivity.
Qed.
