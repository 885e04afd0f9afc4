(** * PropertiesGrowing: C80 - a recording that has grown since gives products that have grown. *)
From Coq Require Import Permutation.
From Verif Require Import PyBase PyDict PyFloat PyVal BitsSpec BitsModel MessageSpec FramerModel FramerSpec FramerProofs FramerTheorems PropertiesStream MsmModel MsmSpec
  TestData DecoderModel DecoderSpec DecoderProofs PropertiesDecoder
  JsonModel JsonSpec JsonFileSpec JsonFiles JsonDecoded PropertiesJson MargoModel MargoSpec MargoProofs MargoFiles PropertiesMargo
  PrinterModel PrinterSpec PrinterProofs PropertiesPrinter MainModel MainSpec MainProofs NamesSpec NamesProofs PropertiesMain PropertiesFiles PiecesSpec
  PropertiesPieces PropertiesKinds.
Local Open Scope string_scope.
Local Open Scope list_scope.
Local Open Scope Z_scope.

(** The later text is the earlier one with more at its end; for JSON files: before the two bytes
    "\r]" that end a document. *)
Definition grown (earlier later : option (list Z)) : Prop :=
  match earlier with None => True | Some x => exists more, later = Some (x ++ more) end.
Definition grown_json (earlier later : option (list Z)) : Prop :=
  match earlier with None => True | Some x => exists messages more, x = messages ++ [13; 93] /\ later = Some (messages ++ more ++ [13; 93]) end.

Lemma with_number_app n a b : with_number n (a ++ b) = with_number n a ++ with_number n b.
Proof. apply filter_app. Qed.

Lemma extend_grown h a b : grown (extend h a None) (extend h (a ++ b) None).
Proof.
  rewrite extend_app. destruct a as [|r l]; [exact Logic.I|]. unfold extend at 1 3. unfold grown. destruct b as [|r' l']; [exists []; unfold extend; now rewrite app_nil_r|].
  exists (concat (r' :: l')). reflexivity.
Qed.
Lemma json_grown ctl a b : grown_json (json_file ctl a) (json_file ctl (a ++ b)).
Proof.
  destruct a as [|x l]; [exact Logic.I|]. change ((x :: l) ++ b) with (x :: (l ++ b)). unfold json_file, grown_json.
  exists (hdr_text (class_of x) ++ body ctl (x :: l)), (body ctl b). split; [reflexivity|]. f_equal.
  assert (E : body ctl (x :: l ++ b) = body ctl (x :: l) ++ body ctl b); [|rewrite E, <- !app_assoc; reflexivity].
  change (x :: l ++ b) with ((x :: l) ++ b). unfold body. now rewrite !map_app, concat_app.
Qed.

(** A recording is converted while it is still being written - it may be cut anywhere, also
    within a message - and once more later: each product of the first conversion is in the
    products of the second, continued. *)
Theorem C80_growing : forall mode env ctl c ord a b,
  factory mode true env ctl = Ok (Some c) -> walk ord -> controls_ok (box_margo ctl) -> (forall n p, env n p = true) ->
  bytes_ok (a ++ b) ->
  let file x path := sget (output_files (r_world (fst (decode_rtcm_file ord no_faults (regular_file x) (started c))))) path in
  (forall g p sgn t, known g sgn -> grown (file a (obs_path g p sgn t)) (file (a ++ b) (obs_path g p sgn t))) /\
  (forall num sub name, json_place num sub name ->
     let path := (sub ++ "/" ++ name)%string in grown_json (file a path) (file (a ++ b) path)) /\
  (forall path, file a path <> None -> file (a ++ b) path <> None).
Proof.
  intros mode env ctl c ord a b F O C EN B file. pose proof B as B'. apply bytes_ok_app in B' as (BA & BB).
  destruct (scans_exists a BA) as (segsa & rest & SA).
  assert (BR : bytes_ok (rest ++ b)).
  { apply bytes_ok_app. split; [|exact BB]. pose proof (scans_bytes _ _ _ SA) as E. rewrite E in BA. apply bytes_ok_app in BA. tauto. }
  destruct (scans_exists (rest ++ b) BR) as (segsb & rest' & SB).
  assert (SAB : scans (a ++ b) (segsa ++ segsb) rest') by (eapply scans_app; [exact SA|exact SB]).
  destruct (files_by_kind mode env ctl c ord a _ _ F O C EN BA SA) as (JA & OA & PA).
  destruct (files_by_kind mode env ctl c ord (a ++ b) _ _ F O C EN B SAB) as (JB & OB & _).
  rewrite frames_of_app in JB, OB.
  assert (OO : forall g p sgn t, known g sgn -> grown (file a (obs_path g p sgn t)) (file (a ++ b) (obs_path g p sgn t))).
  { intros g p sgn t K. destruct (header_ok (box_margo ctl) g p sgn t C K) as (h1 & h2 & HH & _). unfold file.
    rewrite (OA g p sgn t h1 h2 K HH), (OB g p sgn t h1 h2 K HH), with_number_app, objects_app. unfold observations. rewrite filter_app, flat_map_app.
    apply extend_grown. }
  assert (JJ : forall num e, zget JSON_SPEC num = Some e -> grown_json (file a (json_path e)) (file (a ++ b) (json_path e))).
  { intros num e E. unfold file. rewrite (JA num e E), (JB num e E), with_number_app, objects_app. unfold numbered. rewrite filter_app.
    apply json_grown. }
  split; [exact OO|]. split.
  - intros num sub name PL. destruct (place_spec _ _ _ PL) as (e & E & <- & <-). exact (JJ num e E).
  - intros path N. destruct (PA path N) as [(num & e & E & ->)|(g & p & sgn & t & K & ->)].
    + specialize (JJ num e E). destruct (file a (json_path e)); [|destruct (N eq_refl)]. destruct JJ as (? & ? & _ & ->). discriminate.
    + specialize (OO g p sgn t K). destruct (file a (obs_path g p sgn t)); [|destruct (N eq_refl)]. destruct OO as (? & ->). discriminate.
Qed.
Print Assumptions C80_growing.

(** A recording cut within its second message. *)
Example C80_nonvacuous :
  let a := sample_1005 ++ firstn 20 sample_1077 in let b := skipn 20 sample_1077 ++ sample_1005 in
  json_place 1005 "BASE" "RefPoint-1005.json" /\ known GPS "1C" /\
  map (fun x => option_map (@length Z) (run_file x "BASE/RefPoint-1005.json")) [a; a ++ b] = [Some 309; Some 589]%nat /\
  map (fun x => option_map (@length Z) (run_file x (obs_path GPS CodeRange "1C" MSM7))) [a; a ++ b] = [None; Some (523 + 523 + 523)]%nat.
Proof. split; [apply (place_base 1005 "RefPoint"); cbn; tauto|]. split; [vm_compute; tauto|]. split; vm_compute; reflexivity. Qed.
