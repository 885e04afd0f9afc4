(** * From transmitted messages to JSON files: C68. *)
From Coq Require Import Ascii Reals Psatz Lia.
From Verif Require Import PyBase PyDict PyFloat PyVal PyFormat PyJson JsonSpec BitsSpec MessageSpec FramerModel FramerSpec FramerProofs FramerTheorems DecoderModel DecoderSpec DecoderProofs TestData PropertiesStream
  EphSpec BaseSpec MsmModel MsmSpec MsmScaleSpec MsmTheorems PropertiesMsm JsonModel JsonFileSpec MargoModel MargoSpec PrinterModel PrinterSpec NamesSpec
  MainModel MainSpec ControlsModel ControlsSpec SessionModel SessionSpec PropertiesPrinter PropertiesMargo PropertiesFiles SourcesModel SourcesSpec IniModel ArgsModel ArgsSpec ProgramModel ProgramSpec PropertiesProgram
  TransmissionSpec TransmissionProofs PropertiesTransmission DocumentsSpec DocumentsProofs.
Local Open Scope string_scope.
Local Open Scope list_scope.
Local Open Scope Z_scope.

(** Every frame brings a message, or nothing for the JSON files: the hypotheses below cover every
    content of a source. *)
Theorem C68_every_frame : forall bare content segs rest, scans content segs rest ->
  exists msgs, Forall2 (receives bare) (frames_of segs) msgs.
Proof.
  intros bare content segs rest S. apply scans_frames_valid in S. induction S as [|f l V _ (msgs & IH)]; [exists []; constructor|].
  destruct (receives_total bare f V) as (o & A). exists (o :: msgs). now constructor.
Qed.
Print Assumptions C68_every_frame.

Lemma shown_document ctl mode num frames msgs : In mode modes -> Forall valid_frame frames -> Forall2 (receives (is_bare mode)) frames msgs ->
  match filter (element_of mode num) (received msgs) with
  | [] => MainSpec.numbered mode num (objects mode frames) = []
  | l => exists x r, MainSpec.numbered mode num (objects mode frames) = x :: r /\
           forall text, read_json text = Some (document ctl x r) -> json_file ctl (is_bare mode) num l text
  end.
Proof.
  intros M V A. pose proof (elements ctl mode num M frames msgs V A) as F.
  destruct (filter (element_of mode num) (received msgs)) as [|m l]; inversion F as [|x m' r l' (C & S) F']; subst; [reflexivity|].
  exists x, r. split; [reflexivity|]. intros text R. exists (class_of x), (map (json_of ctl) (x :: r)). split; [exact C|]. split; [exact R|].
  cbn [map]. constructor; [exact S|]. clear -F'. induction F' as [|y m r l (_ & S) F IH]; constructor; assumption.
Qed.

(** C68: the JSON file of a message number is absent if no message of this number that goes to
    JSON files arrived; otherwise it is a JSON array with one element per such message, in the
    order of arrival, that shows what was sent. *)
Theorem C68_products : forall mode ctl src content f segs rest msgs,
  In mode modes -> products mode ctl src content f -> scans content segs rest ->
  Forall2 (receives (is_bare mode)) (frames_of segs) msgs ->
  forall num sub name, json_place num sub name ->
    let file := work_folder src mode ++ [sub; name] in
    match filter (element_of mode num) (received msgs) with
    | [] => f file = None
    | l => exists text, f file = Some text /\ json_file (box_json ctl) (is_bare mode) num l text
    end.
Proof.
  intros mode ctl src content f segs rest msgs M P S A num sub name PL. cbv zeta.
  destruct (P segs rest S) as (J & _). specialize (J num sub name PL). cbv zeta in J.
  pose proof (shown_document (box_json ctl) mode num _ msgs M (scans_frames_valid _ _ _ S) A) as D.
  destruct (filter (element_of mode num) (received msgs)) as [|m l].
  - now rewrite D in J.
  - destruct D as (x & r & E & D). rewrite E in J. destruct J as (text & T & R). exists text. split; [exact T|]. now apply D.
Qed.
Print Assumptions C68_products.

(** The same for the conversion of one file ... *)
Theorem C68_conversion : forall ord mode ctl env f src content segs rest msgs f' status,
  In mode modes -> walk ord -> controls_ok (box_margo ctl) ->
  (forall n p, env src n p = true) -> inside (work_folder src mode) src = false ->
  f src = Some content -> bytes_ok content -> scans content segs rest -> Forall2 (receives (is_bare mode)) (frames_of segs) msgs ->
  convert_file ord mode ctl env f src = (f', Some status) ->
  forall num sub name, json_place num sub name ->
    let file := work_folder src mode ++ [sub; name] in
    match filter (element_of mode num) (received msgs) with
    | [] => f' file = None
    | l => exists text, f' file = Some text /\ json_file (box_json ctl) (is_bare mode) num l text
    end.
Proof.
  intros ord mode ctl env f src content segs rest msgs f' status M W C EV IN FS B S A CV num sub name PL. cbv zeta.
  pose proof (C47_json_product ord mode ctl env f src content segs rest f' status num sub name M W C EV IN FS B S CV PL) as J. cbv zeta in J.
  pose proof (shown_document (box_json ctl) mode num _ msgs M (scans_frames_valid _ _ _ S) A) as D.
  destruct (filter (element_of mode num) (received msgs)) as [|m l].
  - now rewrite D in J.
  - destruct D as (x & r & E & D). rewrite E in J. destruct J as (text & T & R). exists text. split; [exact T|]. now apply D.
Qed.
Print Assumptions C68_conversion.

(** ... and for the whole command. *)
Theorem C68_command : forall kord cwd d ini typed lks f argv s srcs mode files ctl,
  says argv s srcs -> formats_known s -> Some mode = last_of Format s (Some "MARGO") -> In mode modes ->
  existing cwd d srcs files -> (forall x p ns, srcs = [x] -> stands_for cwd x p -> d p <> KDir ns) -> same_disk d f ->
  main_controls kord (ini "defaults.ini") (option_map ini (last_of Ini s None)) = Ok (Some ctl) ->
  controls_ok (box_margo ctl) ->
  (forall n, lucky (lks n)) -> independent mode files ->
  (forall src content, In src files -> f (work_folder src mode) = None /\ (f src = Some content -> bytes_ok content)) ->
  exists f' outs, program kord cwd d ini typed lks f argv = Ran f' outs None /\
    forall src content segs rest msgs, In src files -> f src = Some content -> scans content segs rest ->
    Forall2 (receives (is_bare mode)) (frames_of segs) msgs ->
    forall num sub name, json_place num sub name ->
      let file := work_folder src mode ++ [sub; name] in
      match filter (element_of mode num) (received msgs) with
      | [] => f' file = None
      | l => exists text, f' file = Some text /\ json_file (box_json ctl) (is_bare mode) num l text
      end.
Proof.
  intros kord cwd d ini typed lks f argv s srcs mode files ctl SY FK MD M EX ND SD MC C LK IND H0.
  destruct (C60_command kord cwd d ini typed lks f argv s srcs mode files ctl SY FK MD EX ND SD MC C LK IND H0) as (f' & outs & R & _ & _ & P).
  exists f', outs. split; [exact R|]. intros src content segs rest msgs I E S A. destruct (P src I) as (content' & E' & PR).
  assert (content' = content) as -> by congruence. exact (C68_products mode ctl src content f' segs rest msgs M PR S A).
Qed.
Print Assumptions C68_command.

(** Example: two observation messages with a reference point in between. *)
Definition payload_of (f : list Z) : list Z := firstn (length f - 6) (skipn 3 f).
Definition value_at (text : option (list Z)) (k : nat) (names : list (list Z)) : option jv :=
  match text with
  | Some t => match read_json t with Some (JArr l) => match nth_error l k with Some v => jpath v names | None => None end | _ => None end
  | None => None
  end.
Example C68_nonvacuous :
  let src := ["d"; "a.rtcm3"] in let f := files_of [(src, sample_stream)] in
  let msgs := [Some (MMsm sample_msm7); Some (MPos R1005 (payload_of sample_1005)); Some (MMsm sample_msm7)] in
  controls_ok (box_margo sample_box) /\ bytes_ok sample_stream /\
  scans sample_stream [Frame sample_frame; Frame sample_1005; Frame sample_frame] [] /\
  Forall2 (receives false) [sample_frame; sample_1005; sample_frame] msgs /\
  Forall2 (receives true) [sample_frame; sample_1005; sample_frame] msgs /\
  json_place 1077 "MSM7" "GPS-MSM7-1077.json" /\ json_place 1005 "BASE" "RefPoint-1005.json" /\
  length (filter (element_of "JSON" 1077) (received msgs)) = 2%nat /\ filter (element_of "JARGO" 1077) (received msgs) = [] /\
  (let '(f', status) := convert_file (fun l => l) "JSON" sample_box (fun _ => sample_os) f src in
   status = Some WithoutErrors /\
   (match value_at (f' ["d"; "a-JSON"; "MSM7"; "GPS-MSM7-1077.json"]) 2 [ustr "200000000"; ustr "obs"; ustr "rng"; ustr "2L"; ustr "17"] with
    | Some (JReal _) => True | _ => False end) /\
   value_at (f' ["d"; "a-JSON"; "BASE"; "RefPoint-1005.json"]) 1 [ustr "msgNum"] = Some (JInt 1005)) /\
  let '(f', status) := convert_file (fun l => l) "JSON-B" sample_box (fun _ => sample_os) f src in
  status = Some WithoutErrors /\
  value_at (f' ["d"; "a-JSON-B"; "MSM7"; "GPS-MSM7-1077.json"]) 2 [ustr "200000000"; ustr "sat"; ustr "rng_rough"] = Some (JArr (map (fun s => JInt (sd_rough s)) (m_sats sample_msm7))).
Proof.
  cbv zeta. split; [exact default_controls_ok|].
  assert (V : valid_frame sample_frame) by (apply valid_frame_check; vm_compute; reflexivity).
  split; [apply PyBase.bytes_okb_ok; vm_compute; reflexivity|].
  split; [unfold sample_stream; cbn [concat]; constructor; [exact V|]; constructor; [exact sample_1005_valid|]; constructor; [exact V|constructor]|].
  assert (A : forall bare, Forall2 (receives bare) [sample_frame; sample_1005; sample_frame]
     [Some (MMsm sample_msm7); Some (MPos R1005 (payload_of sample_1005)); Some (MMsm sample_msm7)]).
  { intros bare. assert (A : receives bare sample_frame (Some (MMsm sample_msm7))).
    { constructor. cbn [brings]. destruct sample_readable as (R1 & R2 & R3 & R4). split; [exact R1|]. split; [exact R2|]. split; [exact R3|]. split; [|intros _; exact R4].
      apply frame_bits_carries; [vm_compute; congruence|reflexivity|apply PyBase.bytes_okb_ok; vm_compute; reflexivity]. }
    constructor; [exact A|]. constructor; [|constructor; [exact A|constructor]]. constructor. cbn [brings].
    split; [split; [vm_compute; discriminate|vm_compute; reflexivity]|]. split; [vm_compute; reflexivity|].
    exists (skipn (length sample_1005 - 3) sample_1005). split; [vm_compute; reflexivity|]. split; [vm_compute; discriminate|]. split; [vm_compute; reflexivity|].
    split; apply PyBase.bytes_okb_ok; vm_compute; reflexivity. }
  split; [exact (A false)|]. split; [exact (A true)|].
  split; [apply (place_msm 0 "GPS" 7); [cbn; tauto|lia]|]. split; [apply (place_base 1005 "RefPoint"); cbn; tauto|].
  split; [vm_compute; reflexivity|]. split; [vm_compute; reflexivity|]. split; vm_compute; repeat split.
Qed.
