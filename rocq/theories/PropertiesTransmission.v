(** * From transmitted messages to observation files: C67. *)
From Coq Require Import Ascii Reals Psatz Lia.
From Verif Require Import PyBase PyDict PyFloat PyVal BitsSpec MessageSpec FramerModel FramerSpec FramerProofs FramerTheorems DecoderModel DecoderSpec DecoderProofs TestData PropertiesStream
  MsmModel MsmSpec MsmScaleSpec MsmTheorems PropertiesMsm JsonModel MargoModel FormatSpec MargoSpec MargoProofs MargoFiles PropertiesMargo PrinterModel PrinterSpec PropertiesPrinter
  MainModel MainSpec ControlsModel ControlsSpec SessionModel SessionSpec PropertiesFiles SourcesModel SourcesSpec IniModel ArgsModel ArgsSpec ProgramModel ProgramSpec PropertiesProgram
  TransmissionSpec TransmissionProofs.
Local Open Scope string_scope.
Local Open Scope list_scope.
Local Open Scope Z_scope.

(** Every frame brings a message the program can read, or nothing for the observation files:
    the hypotheses below cover every content of a source. *)
Theorem C67_every_frame : forall content segs rest, scans content segs rest ->
  exists msgs, Forall2 arrives (frames_of segs) msgs.
Proof.
  intros content segs rest S. apply scans_frames_valid in S. induction S as [|f l V _ (msgs & IH)]; [exists []; constructor|].
  destruct (arrives_total "MARGO" f (or_introl eq_refl) V) as (o & A). exists (o :: msgs). now constructor.
Qed.
Print Assumptions C67_every_frame.

Lemma shown_files mode ctl msgs frames hist : In mode ["MARGO"; "JARGO"] -> controls_ok ctl -> 0 <= gps_utc_shift ctl <= 10000 ->
  Forall valid_frame frames -> Forall2 arrives frames msgs -> history_of (observations mode (objects mode frames)) hist ->
  forall g p sgn t, known g sgn ->
    Forall2 of_message (filter (goes_here ctl g p sgn t) hist) (filter (has_row ctl g p sgn t) (sent msgs)) /\
    forall text, file_of ctl g p sgn t hist text -> observation_file ctl g p sgn t (sent msgs) text.
Proof.
  intros M C SH V A H g p sgn t K. assert (O : observing mode) by (destruct M as [<-|[<-|[]]]; [left|right]; reflexivity).
  rewrite (observations_sent mode O frames msgs V A) in H.
  assert (R : Forall readable (sent msgs)).
  { clear -A. induction A as [|f o l l' X A IH]; [constructor|]. unfold sent in *. cbn [flat_map]. destruct X; [constructor|]; assumption. }
  pose proof (history_messages _ _ R H) as F. split.
  - exact (filter_rel _ _ _ _ _ (fun e m => goes_row ctl g p sgn t e m) F).
  - intros text. apply file_sent; assumption.
Qed.

(** C67: in the observation modes, the file of a system, parameter, signal and message type is
    absent if no message that arrived has such a value; otherwise it holds the two headers and
    one line per such message, in the order of arrival, whose fields show what was sent. *)
Theorem C67_products : forall mode ctl src content f segs rest msgs,
  In mode ["MARGO"; "JARGO"] -> controls_ok (box_margo ctl) -> 0 <= gps_utc_shift (box_margo ctl) <= 10000 ->
  products mode ctl src content f -> scans content segs rest -> Forall2 arrives (frames_of segs) msgs ->
  forall g p sgn t, known g sgn ->
    let file := work_folder src mode ++ [gnss_dir g; obs_file g p sgn t] in
    match filter (has_row (box_margo ctl) g p sgn t) (sent msgs) with
    | [] => f file = None
    | _ => exists text, f file = Some text /\ observation_file (box_margo ctl) g p sgn t (sent msgs) text
    end.
Proof.
  intros mode ctl src content f segs rest msgs M C SH P S A g p sgn t K. cbv zeta.
  destruct (P segs rest S) as (_ & hist & H & O). specialize (O g p sgn t K). cbv zeta in O.
  destruct (shown_files mode (box_margo ctl) msgs _ hist M C SH (scans_frames_valid _ _ _ S) A H g p sgn t K) as (F & T).
  inversion F as [E1 E2|e m l l' X F' E1 E2]; rewrite <- E1 in O.
  - exact O.
  - destruct O as (text & E & FO). exists text. split; [exact E|]. now apply T.
Qed.
Print Assumptions C67_products.

(** The same for the conversion of one file ... *)
Theorem C67_conversion : forall ord mode ctl env f src content segs rest msgs f' status,
  In mode ["MARGO"; "JARGO"] -> walk ord -> controls_ok (box_margo ctl) -> 0 <= gps_utc_shift (box_margo ctl) <= 10000 ->
  (forall n p, env src n p = true) -> inside (work_folder src mode) src = false ->
  f src = Some content -> bytes_ok content -> scans content segs rest -> Forall2 arrives (frames_of segs) msgs ->
  convert_file ord mode ctl env f src = (f', Some status) ->
  forall g p sgn t, known g sgn ->
    let file := work_folder src mode ++ [gnss_dir g; obs_file g p sgn t] in
    match filter (has_row (box_margo ctl) g p sgn t) (sent msgs) with
    | [] => f' file = None
    | _ => exists text, f' file = Some text /\ observation_file (box_margo ctl) g p sgn t (sent msgs) text
    end.
Proof.
  intros ord mode ctl env f src content segs rest msgs f' status M W C SH EV IN FS B S A CV g p sgn t K. cbv zeta.
  assert (MM : In mode modes) by (destruct M as [<-|[<-|[]]]; vm_compute; tauto).
  destruct (C47_obs_product ord mode ctl env f src content segs rest f' status MM W C EV IN FS B S CV) as (hist & H & O).
  specialize (O g p sgn t K). cbv zeta in O.
  destruct (shown_files mode (box_margo ctl) msgs _ hist M C SH (scans_frames_valid _ _ _ S) A H g p sgn t K) as (F & T).
  inversion F as [E1 E2|e m l l' X F' E1 E2]; rewrite <- E1 in O.
  - exact O.
  - destruct O as (text & E & FO). exists text. split; [exact E|]. now apply T.
Qed.
Print Assumptions C67_conversion.

(** ... and for the whole command: what its sources send is what the files of the folders show. *)
Theorem C67_command : forall kord cwd d ini typed lks f argv s srcs mode files ctl,
  says argv s srcs -> formats_known s -> Some mode = last_of Format s (Some "MARGO") -> In mode ["MARGO"; "JARGO"] ->
  existing cwd d srcs files -> (forall x p ns, srcs = [x] -> stands_for cwd x p -> d p <> KDir ns) -> same_disk d f ->
  main_controls kord (ini "defaults.ini") (option_map ini (last_of Ini s None)) = Ok (Some ctl) ->
  controls_ok (box_margo ctl) -> 0 <= gps_utc_shift (box_margo ctl) <= 10000 ->
  (forall n, lucky (lks n)) -> independent mode files ->
  (forall src content, In src files -> f (work_folder src mode) = None /\ (f src = Some content -> bytes_ok content)) ->
  exists f' outs, program kord cwd d ini typed lks f argv = Ran f' outs None /\
    forall src content segs rest msgs, In src files -> f src = Some content -> scans content segs rest -> Forall2 arrives (frames_of segs) msgs ->
    forall g p sgn t, known g sgn ->
      let file := work_folder src mode ++ [gnss_dir g; obs_file g p sgn t] in
      match filter (has_row (box_margo ctl) g p sgn t) (sent msgs) with
      | [] => f' file = None
      | _ => exists text, f' file = Some text /\ observation_file (box_margo ctl) g p sgn t (sent msgs) text
      end.
Proof.
  intros kord cwd d ini typed lks f argv s srcs mode files ctl SY FK MD M EX ND SD MC C SH LK IND H0.
  destruct (C60_command kord cwd d ini typed lks f argv s srcs mode files ctl SY FK MD EX ND SD MC C LK IND H0) as (f' & outs & R & _ & _ & P).
  exists f', outs. split; [exact R|]. intros src content segs rest msgs I E S A. destruct (P src I) as (content' & E' & PR).
  assert (content' = content) as -> by congruence. exact (C67_products mode ctl src content f' segs rest msgs M C SH PR S A).
Qed.
Print Assumptions C67_command.

(** A source of sealed frames one after the other holds exactly these frames. *)
Theorem C67_stream : forall frames, Forall valid_frame frames -> exists segs, scans (concat frames) segs [] /\ frames_of segs = frames.
Proof.
  intros frames V. induction V as [|f l Vf V (segs & S & E)]; [exists []; split; [constructor|reflexivity]|].
  exists (Frame f :: segs). split; [constructor; assumption|]. unfold frames_of in *. cbn [flat_map]. now rewrite E.
Qed.
Print Assumptions C67_stream.

(** Example: two messages with a reference point in between; values of satellites 3 and 17. *)
Definition sample_frame : list Z := frame_bits (msm_bits sample_msm7) [73; 184; 64].
Definition sample_stream : list Z := concat [sample_frame; sample_1005; sample_frame].
Definition fields (text : list Z) (line : nat) : list (list Z) :=
  let fix cut (sep : Z) (l w : list Z) : list (list Z) :=
    match l with [] => [rev w] | x :: l => if x =? sep then rev w :: cut sep l [] else cut sep l (x :: w) end in
  cut 44 (nth line (cut 10 text []) []) [].
Lemma sample_readable : readable sample_msm7.
Proof.
  split; [exact sample_msm7_ok|]. split; [discriminate|]. split; [apply other_types_pass; discriminate|].
  intros k [<-|[<-|[]]]; discriminate.
Qed.
Example C67_nonvacuous :
  let ctl := box_margo sample_box in
  let src := ["d"; "a.rtcm3"] in let f := files_of [(src, sample_stream)] in
  controls_ok ctl /\ 0 <= gps_utc_shift ctl <= 10000 /\ bytes_ok sample_stream /\
  scans sample_stream [Frame sample_frame; Frame sample_1005; Frame sample_frame] [] /\
  Forall2 arrives [sample_frame; sample_1005; sample_frame] [Some sample_msm7; None; Some sample_msm7] /\
  length (filter (has_row ctl GPS CodeRange "2L" MSM7) [sample_msm7; sample_msm7]) = 2%nat /\
  filter (has_row ctl GPS CodeRange "2P" MSM7) [sample_msm7; sample_msm7] = [] /\
  let '(f', status) := convert_file (fun l => l) "MARGO" sample_box (fun _ => sample_os) f src in
  status = Some WithoutErrors /\
  PropertiesFiles.present f' ["d"; "a-MARGO"; "GPS"; obs_file GPS CodeRange "2P" MSM7] = false /\
  match f' ["d"; "a-MARGO"; "GPS"; obs_file GPS CodeRange "2L" MSM7] with
  | Some text => map (fun line => let l := fields text line in (length l, nth 0 l [], nth 3 l [], nth 17 l [])) [2; 3; 4]%nat =
      [(33%nat, ustr " 200000000", ustr "            nan", ustr "   26233303.960"); (33%nat, ustr " 200000000", ustr "            nan", ustr "   26233303.960"); (1%nat, [], [], [])]
  | None => False
  end.
Proof.
  cbv zeta. split; [exact default_controls_ok|]. split; [vm_compute; split; discriminate|].
  assert (V : valid_frame sample_frame) by (apply valid_frame_check; vm_compute; reflexivity).
  split; [apply PyBase.bytes_okb_ok; vm_compute; reflexivity|].
  split; [unfold sample_stream; cbn [concat]; constructor; [exact V|]; constructor; [exact sample_1005_valid|]; constructor; [exact V|constructor]|].
  split.
  { assert (A : arrives sample_frame (Some sample_msm7)).
    { constructor; [exact sample_readable|]. apply frame_bits_carries; [vm_compute; congruence|reflexivity|apply PyBase.bytes_okb_ok; vm_compute; reflexivity]. }
    assert (N : has_number sample_1005 1005) by (split; [vm_compute; lia|vm_compute; reflexivity]).
    constructor; [exact A|]. constructor; [|constructor; [exact A|constructor]]. constructor. intros m _ C.
    unfold msm_bits, header_bits in C. rewrite <- app_assoc in C. apply carries_number in C; [|destruct (m_gnss m), (m_type m); cbn; lia].
    pose proof (has_number_fun _ _ _ N C) as E. destruct (m_gnss m), (m_type m); discriminate E. }
  split; [vm_compute; reflexivity|]. split; [vm_compute; reflexivity|]. vm_compute. repeat split.
Qed.
