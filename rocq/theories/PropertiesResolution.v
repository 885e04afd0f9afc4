(** * PropertiesResolution: C77, observation files tell different measurements apart. *)
From Coq Require Import Reals Lra Lia.
From Verif Require Import PyBase PyDict PyFloat PyVal BitsSpec MessageSpec FramerModel FramerSpec FramerProofs FramerTheorems DecoderModel DecoderSpec DecoderProofs TestData PropertiesStream
  MsmModel MsmSpec MsmScaleSpec MsmTheorems PropertiesMsm JsonModel MargoModel FormatSpec MargoSpec MargoProofs MargoFiles PropertiesMargo PrinterModel PrinterSpec PropertiesPrinter
  MainModel MainSpec ControlsModel ControlsSpec SessionModel SessionSpec PropertiesFiles SourcesModel SourcesSpec IniModel ArgsModel ArgsSpec ProgramModel ProgramSpec PropertiesProgram
  TransmissionSpec TransmissionProofs PropertiesTransmission ResolutionSpec ResolutionProofs.
Local Open Scope string_scope.
Local Open Scope list_scope.
Local Open Scope Z_scope.

Lemma resolution_core ctl g p sgn t msgs msgs' (file : option (list Z)) : controls_ok ctl -> known g sgn ->
  match filter (has_row ctl g p sgn t) msgs with [] => file = None | _ => exists text, file = Some text /\ observation_file ctl g p sgn t msgs text end ->
  match filter (has_row ctl g p sgn t) msgs' with [] => file = None | _ => exists text, file = Some text /\ observation_file ctl g p sgn t msgs' text end ->
  Forall2 (same_readings ctl p sgn) (filter (has_row ctl g p sgn t) msgs) (filter (has_row ctl g p sgn t) msgs').
Proof.
  intros C K A A'.
  destruct file as [text|].
  - assert (B : observation_file ctl g p sgn t msgs text \/ filter (has_row ctl g p sgn t) msgs = []).
    { destruct (filter _ msgs); [now right|]. destruct A as (x & E & A). left. congruence. }
    assert (B' : observation_file ctl g p sgn t msgs' text \/ filter (has_row ctl g p sgn t) msgs' = []).
    { destruct (filter _ msgs'); [now right|]. destruct A' as (x & E & A'). left. congruence. }
    destruct B as [B|B]; [|rewrite B in A; discriminate A]. destruct B' as [B'|B']; [|rewrite B' in A'; discriminate A'].
    exact (file_same _ _ _ _ _ _ _ _ C K B B').
  - destruct (filter _ msgs); [|destruct A as (x & E & _); discriminate E]. destruct (filter _ msgs'); [|destruct A' as (x & E & _); discriminate E]. constructor.
Qed.

(** C77: if the observation files of a system, parameter, signal and message type, of any two
    recordings, are equal, then the messages with values for it say the same, one by one. *)
Theorem C77_products : forall mode ctl src src' content content' f f' segs segs' rest rest' msgs msgs' g p sgn t,
  In mode ["MARGO"; "JARGO"] -> controls_ok (box_margo ctl) -> 0 <= gps_utc_shift (box_margo ctl) <= 10000 ->
  products mode ctl src content f -> products mode ctl src' content' f' ->
  scans content segs rest -> scans content' segs' rest' ->
  Forall2 arrives (frames_of segs) msgs -> Forall2 arrives (frames_of segs') msgs' -> known g sgn ->
  f (work_folder src mode ++ [gnss_dir g; obs_file g p sgn t]) = f' (work_folder src' mode ++ [gnss_dir g; obs_file g p sgn t]) ->
  Forall2 (same_readings (box_margo ctl) p sgn)
    (filter (has_row (box_margo ctl) g p sgn t) (sent msgs)) (filter (has_row (box_margo ctl) g p sgn t) (sent msgs')).
Proof.
  intros mode ctl src src' content content' f f' segs segs' rest rest' msgs msgs' g p sgn t M C SH P P' S S' A A' K E.
  pose proof (C67_products mode ctl src content f segs rest msgs M C SH P S A g p sgn t K) as D.
  pose proof (C67_products mode ctl src' content' f' segs' rest' msgs' M C SH P' S' A' g p sgn t K) as D'. cbv zeta in D, D'. rewrite <- E in D'.
  exact (resolution_core _ _ _ _ _ _ _ _ C K D D').
Qed.
Print Assumptions C77_products.

(** The same for any two conversions of single files, whatever other files there are. *)
Theorem C77_conversion : forall mode ctl g p sgn t ord env f src content segs rest msgs h status ord' env' f' src' content' segs' rest' msgs' h' status',
  In mode ["MARGO"; "JARGO"] -> controls_ok (box_margo ctl) -> 0 <= gps_utc_shift (box_margo ctl) <= 10000 -> known g sgn ->
  walk ord -> (forall n q, env src n q = true) -> inside (work_folder src mode) src = false ->
  f src = Some content -> bytes_ok content -> scans content segs rest -> Forall2 arrives (frames_of segs) msgs ->
  convert_file ord mode ctl env f src = (h, Some status) ->
  walk ord' -> (forall n q, env' src' n q = true) -> inside (work_folder src' mode) src' = false ->
  f' src' = Some content' -> bytes_ok content' -> scans content' segs' rest' -> Forall2 arrives (frames_of segs') msgs' ->
  convert_file ord' mode ctl env' f' src' = (h', Some status') ->
  h (work_folder src mode ++ [gnss_dir g; obs_file g p sgn t]) = h' (work_folder src' mode ++ [gnss_dir g; obs_file g p sgn t]) ->
  Forall2 (same_readings (box_margo ctl) p sgn)
    (filter (has_row (box_margo ctl) g p sgn t) (sent msgs)) (filter (has_row (box_margo ctl) g p sgn t) (sent msgs')).
Proof.
  intros mode ctl g p sgn t ord env f src content segs rest msgs h status ord' env' f' src' content' segs' rest' msgs' h' status'
    M C SH K W EV IN FS B S A CV W' EV' IN' FS' B' S' A' CV' E.
  pose proof (C67_conversion ord mode ctl env f src content segs rest msgs h status M W C SH EV IN FS B S A CV g p sgn t K) as D.
  pose proof (C67_conversion ord' mode ctl env' f' src' content' segs' rest' msgs' h' status' M W' C SH EV' IN' FS' B' S' A' CV' g p sgn t K) as D'.
  cbv zeta in D, D'. rewrite <- E in D'. exact (resolution_core _ _ _ _ _ _ _ _ C K D D').
Qed.
Print Assumptions C77_conversion.

(** ** Example and limit: MSM7 messages which differ in the last bits of a pseudorange *)
Definition fine_msm (k : Z) : msm := sample_msm MSM7 [2; 16]
  [(sample_sat 3, [Some (let c := sample_cell 1 in {| cd_rng := k; cd_phs := cd_phs c; cd_lock := cd_lock c; cd_half := cd_half c; cd_cnr := cd_cnr c; cd_rate := cd_rate c |}); None]);
   (sample_sat 17, [Some (sample_cell 2); Some (sample_cell 3)])].
Definition fine_frame (k : Z) : list Z :=
  frame_bits (msm_bits (fine_msm k)) (if k =? 1000 then [57; 128; 193] else if k =? 1001 then [119; 68; 16] else [164; 9; 99]).
Definition range_file (frames : list (list Z)) : option (list Z) :=
  let src := ["d"; "a.rtcm3"] in
  fst (convert_file (fun l => l) "MARGO" sample_box (fun _ => sample_os) (files_of [(src, List.concat frames)]) src)
    ["d"; "a-MARGO"; "GPS"; obs_file GPS CodeRange "1C" MSM7].
Lemma fine_arrives k : In k [1000; 1001; 1002] -> valid_frame (fine_frame k) /\ arrives (fine_frame k) (Some (fine_msm k)).
Proof.
  intros I. split.
  - repeat (destruct I as [<-|I]; [apply valid_frame_check; vm_compute; reflexivity|]). destruct I.
  - constructor.
    + split; [repeat (destruct I as [<-|I]; [msm_ok_tac|]); destruct I|]. split; [discriminate|]. split; [apply other_types_pass; discriminate|].
      intros s [<-|[<-|[]]]; discriminate.
    + repeat (destruct I as [<-|I]; [apply frame_bits_carries; [vm_compute; congruence|reflexivity|apply PyBase.bytes_okb_ok; vm_compute; reflexivity]|]). destruct I.
Qed.
Lemma fine_reading k : In k [1000; 1001; 1002] -> column_value (box_margo sample_box) (fine_msm k) CodeRange "1C" 3 =
  Some (to_metres (rough_value MSM7 (sample_sat 3) + IZR k / 2 ^ 29))%R.
Proof. intros I. repeat (destruct I as [<-|I]; [reflexivity|]). destruct I. Qed.

(** With the last digit being a millimetre, steps of MSM7 pseudoranges (0.56 mm) are not always
    told apart: two recordings with different pseudoranges have the same file. *)
Theorem C77_fine_ranges_refuted :
  valid_frame (fine_frame 1000) /\ arrives (fine_frame 1000) (Some (fine_msm 1000)) /\
  valid_frame (fine_frame 1001) /\ arrives (fine_frame 1001) (Some (fine_msm 1001)) /\
  range_file [fine_frame 1000] <> None /\ range_file [fine_frame 1000] = range_file [fine_frame 1001] /\
  column_value (box_margo sample_box) (fine_msm 1000) CodeRange "1C" 3 <> column_value (box_margo sample_box) (fine_msm 1001) CodeRange "1C" 3.
Proof.
  destruct (fine_arrives 1000) as (V & A); [cbn; tauto|]. destruct (fine_arrives 1001) as (V' & A'); [cbn; tauto|].
  split; [exact V|]. split; [exact A|]. split; [exact V'|]. split; [exact A'|]. split; [vm_compute; discriminate|]. split; [vm_compute; reflexivity|].
  rewrite !fine_reading by (cbn; tauto). intros E. unfold to_metres, light in E.
  assert (E' : forall a b : R, Some a = Some b -> a = b) by congruence. apply E' in E. lra.
Qed.
Print Assumptions C77_fine_ranges_refuted.

(** Example: the file of two such messages. *)
Example C77_nonvacuous :
  controls_ok (box_margo sample_box) /\ 0 <= gps_utc_shift (box_margo sample_box) <= 10000 /\ known GPS "1C" /\
  scans (fine_frame 1000 ++ fine_frame 1002) [Frame (fine_frame 1000); Frame (fine_frame 1002)] [] /\
  Forall2 arrives [fine_frame 1000; fine_frame 1002] [Some (fine_msm 1000); Some (fine_msm 1002)] /\
  length (filter (has_row (box_margo sample_box) GPS CodeRange "1C" MSM7) [fine_msm 1000; fine_msm 1002]) = 2%nat /\
  range_file [fine_frame 1000; fine_frame 1002] = range_file [fine_frame 1001; [1; 2; 3]; fine_frame 1002] /\
  range_file [fine_frame 1000] <> range_file [fine_frame 1002] /\
  kept_exactly CodeRange MSM7 = false /\ kept_exactly Phase MSM7 = true /\ kept_exactly CodeRange MSM5 = true.
Proof.
  destruct (fine_arrives 1000) as (V & A); [cbn; tauto|]. destruct (fine_arrives 1002) as (V' & A'); [cbn; tauto|].
  split; [exact default_controls_ok|]. split; [vm_compute; split; discriminate|]. split; [cbn; tauto|].
  split; [rewrite <- (app_nil_r (fine_frame 1002)); constructor; [exact V|]; constructor; [exact V'|constructor]|].
  split; [constructor; [exact A|]; constructor; [exact A'|constructor]|].
  split; [vm_compute; reflexivity|]. split; [vm_compute; reflexivity|]. split; [vm_compute; discriminate|]. repeat split.
Qed.
