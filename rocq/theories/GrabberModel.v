(** * GrabberModel: model of the capturing of test data (tests/test_utilities.py, switched on by
    decoder_top.py:30). *)
From Verif Require Import PyBase PyDict PyVal FramerModel DecoderModel.
Local Open Scope string_scope.
Local Open Scope list_scope.
Local Open Scope Z_scope.

(** tests/test_utilities.py:74, the value of "fp": None, a file object, a closed file object *)
Inductive handle := NoFile | Open | Closed.

(** tests/test_utilities.py:74: one entry of a scenario *)
Record scenario := { s_fname : string; s_cnt : Z; s_delay : Z; s_fp : handle }.

(** tests/test_utilities.py:72-153: the attributes of the object *)
Record grabber := {
  eph_scenario : list (Z * scenario);
  base_scenario : list (Z * scenario);
  msm7_scenario : list (Z * scenario);
  msm5_scenario : list (Z * scenario) }.

(** tests/test_utilities.py:74-153: the form of all entries *)
Definition entry (fname : string) (cnt delay : Z) : scenario :=
  {| s_fname := fname; s_cnt := cnt; s_delay := delay; s_fp := NoFile |}.

(** tests/test_utilities.py:72-153 [__init__] *)
Definition grabber_init : grabber := {|
  eph_scenario := [
    (1019, entry "msg1019.rtcm3" 3 0);
    (1020, entry "msg1020.rtcm3" 3 0);
    (1041, entry "msg1041.rtcm3" 3 0);
    (1042, entry "msg1042.rtcm3" 3 0);
    (1044, entry "msg1044.rtcm3" 3 0);
    (1045, entry "msg1045.rtcm3" 3 0);
    (1046, entry "msg1046.rtcm3" 3 0)];
  base_scenario := [
    (1005, entry "msg1005.rtcm3" 1 0);
    (1007, entry "msg1007.rtcm3" 1 0);
    (1230, entry "msg1230.rtcm3" 1 0);
    (1006, entry "msg1006.rtcm3" 1 0);
    (1033, entry "msg1033.rtcm3" 1 0)];
  msm7_scenario := [
    (1077, entry "msg1077.rtcm3" 1 10);
    (1087, entry "msg1087.rtcm3" 1 10);
    (1097, entry "msg1097.rtcm3" 1 10);
    (1127, entry "msg1127.rtcm3" 1 10);
    (1137, entry "msg1137.rtcm3" 1 10)];
  msm5_scenario := [
    (1075, entry "msg1075.rtcm3" 20 10);
    (1085, entry "msg1085.rtcm3" 20 10);
    (1095, entry "msg1095.rtcm3" 20 10);
    (1125, entry "msg1125.rtcm3" 20 10);
    (1135, entry "msg1135.rtcm3" 20 10)] |}.

(** tests/test_utilities.py:159-166: the dictionary chosen by [mode], and the object after a
    change of an entry of it (the entries are dictionaries changed in place) *)
Definition table (g : grabber) (mode : string) : list (Z * scenario) :=
  if String.eqb mode "EPH" then eph_scenario g
  else if String.eqb mode "BASE" then base_scenario g
  else if String.eqb mode "MSM7" then msm7_scenario g
  else if String.eqb mode "MSM5" then msm5_scenario g
  else [].
(** tests/test_utilities.py:159-166 *)
Definition with_table (g : grabber) (mode : string) (t : list (Z * scenario)) : grabber :=
  if String.eqb mode "EPH" then
    {| eph_scenario := t; base_scenario := base_scenario g; msm7_scenario := msm7_scenario g;
       msm5_scenario := msm5_scenario g |}
  else if String.eqb mode "BASE" then
    {| eph_scenario := eph_scenario g; base_scenario := t; msm7_scenario := msm7_scenario g;
       msm5_scenario := msm5_scenario g |}
  else if String.eqb mode "MSM7" then
    {| eph_scenario := eph_scenario g; base_scenario := base_scenario g; msm7_scenario := t;
       msm5_scenario := msm5_scenario g |}
  else if String.eqb mode "MSM5" then
    {| eph_scenario := eph_scenario g; base_scenario := base_scenario g; msm7_scenario := msm7_scenario g;
       msm5_scenario := t |}
  else g.

(** The files of the current directory, by name; tests/test_utilities.py:179-182 *)
Definition folder := string -> option (list Z).
(** The file [name] gets the content [c]; tests/test_utilities.py:179-182 *)
Definition set_file (d : folder) (name : string) (c : list Z) : folder :=
  fun x => if String.eqb x name then Some c else d x.

Section Save.
(** The operating system lets the program create this file.  (Simplification: its answer does not
    change from call to call, and writing into an open file succeeds.) *)
Variable can : string -> bool.

(** tests/test_utilities.py:178-186: what is left to do when the message is to be saved *)
Definition save_message (s : scenario) (d : folder) (msg : list Z) : scenario * folder * res unit :=
  let opened :=
    match s_fp s with
    | NoFile => if can (s_fname s) then Ok (Open, set_file d (s_fname s) []) else Err EOS
    | h => Ok (h, d)
    end in
  match opened with
  | Err e => (s, d, Err e)
  | Ok (Open, d) =>
      let before := match d (s_fname s) with Some c => c | None => [] end in
      let cnt := s_cnt s - 1 in
      ({| s_fname := s_fname s; s_cnt := cnt; s_delay := s_delay s;
          s_fp := if cnt =? 0 then Closed else Open |}, set_file d (s_fname s) (before ++ msg), Ok tt)
  | Ok (_, d) => (s, d, Err EValue)            (* writing into a closed file *)
  end.

(** tests/test_utilities.py:155-186 [save] *)
Definition save (g : grabber) (d : folder) (num : option Z) (msg : list Z) (mode : string)
  : grabber * folder * res unit :=
  match num with
  | None => (g, d, Ok tt)
  | Some n =>
      match zget (table g mode) n with
      | None => (g, d, Ok tt)
      | Some s =>
          if negb (s_delay s =? 0) then
            (with_table g mode (zset (table g mode) n
               {| s_fname := s_fname s; s_cnt := s_cnt s; s_delay := s_delay s - 1; s_fp := s_fp s |}), d, Ok tt)
          else if s_cnt s =? 0 then (g, d, Ok tt)
          else let '(s, d, r) := save_message s d msg in
               (with_table g mode (zset (table g mode) n s), d, r)
      end
  end.

(** decoder_top.py:192-218 [decode], with [TEST_DATA_GRABBER = mode].  The message is saved before
    a sub-decoder is looked for; an exception of [save] is treated as one of a sub-decoder. *)
Definition decode_grab (mode : option string) (st : decoder) (g : grabber) (d : folder) (msg : list Z)
  : res (option rtcm_obj) * decoder * grabber * folder :=
  match mode with
  | None => let '(r, st) := decode st msg in (r, st, g, d)
  | Some m =>
      match mnum msg with
      | Err e => let '(r, st) := decode st msg in (r, st, g, d)
      | Ok num =>
          match save g d num msg m with
          | (g, d, Err e) => (if is_exception e then Ok None else Err e, st, g, d)
          | (g, d, Ok _) => let '(r, st) := decode st msg in (r, st, g, d)
          end
      end
  end.

(** Messages decoded one after the other (run_conversion.py:118-119). *)
Fixpoint decode_all (mode : option string) (st : decoder) (g : grabber) (d : folder) (msgs : list (list Z))
  : list (res (option rtcm_obj)) * decoder * grabber * folder :=
  match msgs with
  | [] => ([], st, g, d)
  | m :: r =>
      let '(a, st, g, d) := decode_grab mode st g d m in
      let '(l, st, g, d) := decode_all mode st g d r in
      (a :: l, st, g, d)
  end.
End Save.

(** tests/test_utilities.py:189-207 [save_some_fancy_test_data]: the first four files; [abra] is
    b"abra-cadabra", 45 is b"-". *)
Definition abra : list Z := [97; 98; 114; 97; 45; 99; 97; 100; 97; 98; 114; 97].
(** tests/test_utilities.py:189-207 *)
Definition fancy_test_data (m0 m1 m2 : list Z) : list (string * list Z) :=
  [("reference-3msg.rtcm3", m0 ++ m1 ++ m2);
   ("reference-3msg-interleaved.rtcm3", m0 ++ [45] ++ m1 ++ [45] ++ m2);
   ("reference-3msg-noiseBefore.rtcm3", abra ++ m0 ++ m1 ++ m2);
   ("reference-3msg-noiseAfter.rtcm3", m0 ++ m1 ++ m2 ++ abra)].
