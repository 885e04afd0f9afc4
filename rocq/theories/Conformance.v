(** * Conformance: runs of the model against the reference outputs kept in the repository.

    The repository keeps, for its sample streams, what the program made of them: the work folders of
    MSM7 streams in the formats MARGO and JSON with all their files and logs
    (/repo/RTCM3_TEST_DATA/MSM7/REF), the JSON files of the base station messages
    (/repo/RTCM3_TEST_DATA/BASE/REF), and the objects of the ephemeris messages
    (/repo/tests/ephemeris_test_samples.py).  Here the model of the whole program is run on the same
    streams, with the shipped controls, and must produce the same.  These are tests of the model,
    not theorems about it: they are evidence that it is the program that is modelled. *)
From Verif Require Import PyBase PyDict PyFloat PyVal DecoderModel JsonModel MargoModel PrinterModel MainModel ControlsModel SessionModel SourcesModel ArgsModel IniModel IniData ProgramModel LogModel FullModel
  CompareModel EphModel TestData ReferenceData.
Local Open Scope string_scope.
Local Open Scope list_scope.
Local Open Scope Z_scope.

(** The machine on which the references were made: the directory of the program, and names of
    files as they are shown there. *)
Definition home : path := ["E:"; "PROJECTS"; "PY"; "RTCM_DECODER"].
Definition shown (p : path) : text := ustr (String.concat "\" p).
Definition quiet : texts :=
  {| tx_why := fun _ _ => []; tx_path := fun _ => []; tx_error := fun _ => []; tx_assertion := fun _ => []; tx_class := ustr;
     tx_source := shown; tx_exn := fun _ => []; tx_stray := fun _ => []; tx_missing := false |}.
Definition fortune : luck :=
  {| lk_rmtree := None; lk_mkdir := true; lk_log := Some true; lk_os := fun _ _ => true; lk_faults := no_faults;
     lk_ord := fun l => l; lk_messages := [] |}.
Definition shipped (name : string) : ini_file :=
  if String.eqb name "defaults.ini" then parse_ini shipped_defaults
  else if String.eqb name "addons.ini" then parse_ini shipped_addons else Missing.

(** The command with these words is run where RTCM3_TEST_DATA holds one stream; every file of the
    reference must then be in the work folder, with the text of the reference. *)
Definition stands (group name : string) : path := home ++ ["RTCM3_TEST_DATA"; group; name ++ ".rtcm3"]%string.
Definition agrees (options : list string) (mode group name : string) (content : list Z) (reference : list (list string * list Z)) : bool :=
  let src := stands group name in
  let f : fs := fun p => if path_eqb p src then Some content else None in
  let d : disk := fun p => if path_eqb p src then KFile else KNone in
  match program_log quiet (fun l => l) home d shipped [] (fun _ => fortune) f (options ++ ["RTCM3_TEST_DATA/" ++ group ++ "/" ++ name ++ ".rtcm3"]%string) with
  | Ran f' [Finished WithoutErrors] None =>
      forallb (fun r => match f' (home ++ ["RTCM3_TEST_DATA"; group; name ++ "-" ++ mode]%string ++ fst r) with
                        | Some t => str_eqb t (snd r)
                        | None => false
                        end) reference
  | _ => false
  end.

(** The references in the format MARGO were made with the controls of addons.ini. *)
Example MSM7_MARGO :
  forallb (fun r => agrees ["-o"; "MARGO"; "-i"; "addons.ini"] "MARGO" "MSM7" (fst (fst r)) (snd (fst r)) (snd r))
    [("msg1077", sample_1077, ref_1077_MARGO); ("msg1087", sample_1087, ref_1087_MARGO); ("msg1097", sample_1097, ref_1097_MARGO);
     ("msg1127", sample_1127, ref_1127_MARGO); ("msg1137", sample_1137, ref_1137_MARGO)] = true.
Proof. vm_compute. reflexivity. Qed.
Example MSM7_JSON :
  forallb (fun r => agrees ["-o"; "JSON"] "JSON" "MSM7" (fst (fst r)) (snd (fst r)) (snd r))
    [("msg1077", sample_1077, ref_1077_JSON); ("msg1087", sample_1087, ref_1087_JSON); ("msg1097", sample_1097, ref_1097_JSON);
     ("msg1127", sample_1127, ref_1127_JSON); ("msg1137", sample_1137, ref_1137_JSON)] = true.
Proof. vm_compute. reflexivity. Qed.
Example BASE_JSON :
  forallb (fun r => agrees ["-o"; "JSON"] "JSON" "BASE" (fst (fst r)) (snd (fst r)) (snd r))
    [("msg1005", sample_1005, ref_1005); ("msg1006", sample_1006, ref_1006); ("msg1007", sample_1007, ref_1007);
     ("msg1029", sample_1029, ref_1029); ("msg1033", sample_1033, ref_1033); ("msg1230", sample_1230, ref_1230)] = true.
Proof. vm_compute. reflexivity. Qed.

(** (A reference of another stream, and one of another format, are told apart.) *)
Example not_others :
  agrees ["-o"; "JSON"] "JSON" "BASE" "msg1005" sample_1005 ref_1006 = false /\
  agrees ["-o"; "MARGO"] "MARGO" "MSM7" "msg1137" sample_1137 ref_1137_JSON = false.
Proof. split; vm_compute; reflexivity. Qed.

(** tests/ephemeris_test_samples.py:51-81 [_test_eph]: the messages of a stream, one after the
    other, decoded in the modes JSON and JSON-B (and then scaled), each compared with its reference. *)
Fixpoint frames (n : nat) (l : list Z) : list (list Z) :=
  match n, l with
  | S n, _ :: a :: b :: _ => let k := Z.to_nat (256 * a + b + 6) in firstn k l :: frames n (skipn k l)
  | _, _ => []
  end.
Definition eph_agrees (stream : list Z) (reference : list pyobj) : bool :=
  let msgs := frames 10 stream in
  Nat.eqb (length msgs) (length reference) &&
  forallb (fun mr =>
    match subdecoder_eph false (fst mr), subdecoder_eph true (fst mr) with
    | Ok (Some o), Ok (Some b) =>
        match compare o (snd mr) (dec_lit 1 15), eph_scale b with
        | Ok true, Ok o' => match compare o' (snd mr) (dec_lit 1 15) with Ok true => true | _ => false end
        | _, _ => false
        end
    | _, _ => false
    end) (combine msgs reference).
Example EPH_objects :
  forallb (fun r => eph_agrees (fst r) (snd r))
    [(sample_1019, ref_1019); (sample_1020, ref_1020); (sample_1041, ref_1041);
     (sample_1042, ref_1042); (sample_1045, ref_1045); (sample_1046, ref_1046)] = true.
Proof. vm_compute. reflexivity. Qed.
