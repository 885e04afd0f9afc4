(** * The whole command: C60. *)
From Coq Require Import Ascii Permutation.
From Verif Require Import PyBase PyDict PyVal FramerSpec DecoderModel MsmModel MargoModel MargoSpec MargoFiles JsonModel JsonFileSpec PrinterModel PrinterSpec
  MainModel MainSpec PropertiesStream ControlsModel ControlsSpec SessionModel SessionSpec PropertiesControls PropertiesFiles PropertiesSession SourcesModel SourcesSpec PropertiesSources
  IniModel IniData PropertiesIni ArgsModel ArgsSpec PropertiesArgs ProgramModel ProgramSpec.
Local Open Scope string_scope.
Local Open Scope list_scope.
Local Open Scope Z_scope.

Lemma existing_unique : forall cwd d srcs l, existing cwd d srcs l -> l = filter (isfile d) (map (abspath cwd) srcs).
Proof.
  induction 1 as [|s p r q ST D E IH|s p r q ST D E IH]; cbn [map filter]; [reflexivity| |];
    rewrite <- (stands_unique _ _ _ _ ST (abspath_stands cwd s)).
  - replace (isfile d p) with true by (unfold isfile; now rewrite D). now rewrite IH.
  - replace (isfile d p) with false by (unfold isfile; destruct (d p); congruence). exact IH.
Qed.
Lemma nth_error_None_lt : forall (A : Type) (l : list A) n x, nth_error l n = Some x -> (n < length l)%nat.
Proof. intros A l n x H. apply nth_error_Some. congruence. Qed.
Lemma map_fst_combine : forall (A B : Type) (a : list A) (b : list B), length a = length b -> map fst (combine a b) = a.
Proof. induction a as [|x a IH]; intros [|y b] L; cbn in *; try congruence; try reflexivity. f_equal. apply IH. lia. Qed.

Lemma command_files : forall kord cwd d ini typed lks f argv s srcs mode ext files ctl,
  says argv s srcs -> formats_known s -> Some mode = last_of Format s (Some "MARGO") -> Some ext = last_of Ext s (Some "rtcm3") ->
  make_list_of_source_files cwd d srcs ext typed = files -> (forall src, In src files -> d src = KFile) -> same_disk d f ->
  main_controls kord (ini "defaults.ini") (option_map ini (last_of Ini s None)) = Ok (Some ctl) -> controls_ok (box_margo ctl) ->
  (forall n, lucky (lks n)) -> independent mode files ->
  (forall src content, In src files -> f (work_folder src mode) = None /\ (f src = Some content -> bytes_ok content)) ->
  exists f' outs, program kord cwd d ini typed lks f argv = Ran f' outs None /\ length outs = length files /\
    (forall p, (forall src, In src files -> inside (work_folder src mode) p = false) -> f' p = f p) /\
    forall src, In src files -> exists content, f src = Some content /\ products mode ctl src content f'.
Proof.
  intros kord cwd d ini typed lks f argv s srcs mode ext files ctl SY FK MD XD FL EX SD MC C LK IND H0.
  destruct (C59_complete argv s srcs SY FK) as (n & A & (U1 & U2 & U3 & U4)). destruct n as [m u ext' so]. cbn [n_format n_ini n_ext n_source] in *. subst so u.
  assert (m = mode) as -> by congruence. assert (ext' = ext) as -> by congruence.
  assert (M : In mode modes) by exact (proj1 (C59_format _ _ A)).
  set (jobs := combine files (map lks (seq 0 (length files)))).
  assert (MJ : map fst jobs = files) by (apply map_fst_combine; rewrite map_length, seq_length; reflexivity).
  assert (LJ : length jobs = length files) by (rewrite <- (map_length fst jobs), MJ; reflexivity).
  destruct (main kord (ini "defaults.ini") (option_map ini (last_of Ini s None)) mode f jobs) as [[f' l'] [outs x]] eqn:R.
  assert (FX : forall src, In src files -> exists content, f src = Some content).
  { intros src I. specialize (EX src I). apply SD in EX. destruct (f src) as [content|]; [eauto|congruence]. }
  destruct (C56_run kord (ini "defaults.ini") (option_map ini (last_of Ini s None)) ctl mode f jobs f' l' outs x MC C M) as (-> & L & OUT & PR); auto.
  - intros src lk I. apply in_combine_r in I. apply in_map_iff in I as (k & <- & _). apply LK.
  - rewrite MJ. exact IND.
  - rewrite MJ. intros src I. destruct (FX src I) as (content & E). destruct (H0 src content I) as (N & B). split; [exact N|]. exists content. auto.
  - exists f', outs. rewrite MJ in OUT, PR. split; [|split; [congruence|split; [exact OUT|]]].
    + unfold program. unfold DEFAULT_CONFIG. unfold main_controls in MC. destruct (init_from_file kord controls_init (ini "defaults.ini")) as [st [[]|e]] eqn:IE; [|discriminate].
      cbn [snd]. rewrite A, FL. fold jobs. rewrite R. reflexivity.
    + intros src I. destruct (FX src I) as (content & E). exists content. split; [exact E|]. intros segs rest SC. exact (PR src content segs rest I E SC).
Qed.

(** C60: a command line that says settings and sources, none of which is a directory, is carried
    out: the sources that exist are converted, in order, in the format that was given last (or
    MARGO), with the controls of defaults.ini and of the INI file that was given last; the
    products of each are what its bytes call for, and nothing else in the file system changes. *)
Theorem C60_command : forall kord cwd d ini typed lks f argv s srcs mode files ctl,
  says argv s srcs -> formats_known s -> Some mode = last_of Format s (Some "MARGO") ->
  existing cwd d srcs files -> (forall x p ns, srcs = [x] -> stands_for cwd x p -> d p <> KDir ns) -> same_disk d f ->
  main_controls kord (ini "defaults.ini") (option_map ini (last_of Ini s None)) = Ok (Some ctl) -> controls_ok (box_margo ctl) ->
  (forall n, lucky (lks n)) -> independent mode files ->
  (forall src content, In src files -> f (work_folder src mode) = None /\ (f src = Some content -> bytes_ok content)) ->
  exists f' outs, program kord cwd d ini typed lks f argv = Ran f' outs None /\ length outs = length files /\
    (forall p, (forall src, In src files -> inside (work_folder src mode) p = false) -> f' p = f p) /\
    forall src, In src files -> exists content, f src = Some content /\ products mode ctl src content f'.
Proof.
  intros kord cwd d ini typed lks f argv s srcs mode files ctl SY FK MD EX ND SD MC C LK IND H0.
  assert (XE : exists ext, Some ext = last_of Ext s (Some "rtcm3")).
  { destruct (C59_complete argv s srcs SY FK) as (n & _ & (_ & _ & U & _)). eauto. }
  destruct XE as (ext & XE). apply (command_files kord cwd d ini typed lks f argv s srcs mode ext files ctl); auto.
  - rewrite (existing_unique _ _ _ _ EX).
    assert (X : existing cwd d srcs (make_list_of_source_files cwd d srcs ext typed)) by (apply C53_listed; intros x p E ST ns; exact (ND x p ns E ST)).
    exact (existing_unique _ _ _ _ X).
  - intros src I. rewrite (existing_unique _ _ _ _ EX) in I. apply filter_In in I as (_ & I). unfold isfile in I. destruct (d src); congruence.
Qed.
Print Assumptions C60_command.

(** The same for a directory (whose path and extension have no characters of patterns): the user
    is shown the list [l] of its visible entries with the extension, answers with numbers, and
    the entries with these numbers, all of them files, are converted. *)
Theorem C60_directory : forall kord cwd d ini typed lks f argv s dir p names mode ext files nums ctl,
  says argv s [dir] -> formats_known s -> Some mode = last_of Format s (Some "MARGO") -> Some ext = last_of Ext s (Some "rtcm3") ->
  stands_for cwd dir p -> d p = KDir names -> NoDup names -> Forall SourcesSpec.plain p -> SourcesSpec.plain ext -> same_disk d f ->
  (exists n, In n names /\ has_extension ext n /\ visible n) ->
  answer_says typed nums -> picks (shown d p ext) nums files -> (forall src, In src files -> d src = KFile) ->
  main_controls kord (ini "defaults.ini") (option_map ini (last_of Ini s None)) = Ok (Some ctl) -> controls_ok (box_margo ctl) ->
  (forall n, lucky (lks n)) -> independent mode files ->
  (forall src content, In src files -> f (work_folder src mode) = None /\ (f src = Some content -> bytes_ok content)) ->
  (NoDup (shown d p ext) /\ forall q, In q (shown d p ext) <-> exists n, q = p ++ [n] /\ In n names /\ has_extension ext n /\ visible n) /\
  exists f' outs, program kord cwd d ini typed lks f argv = Ran f' outs None /\ length outs = length files /\
    (forall q, (forall src, In src files -> inside (work_folder src mode) q = false) -> f' q = f q) /\
    forall src, In src files -> exists content, f src = Some content /\ products mode ctl src content f'.
Proof.
  intros kord cwd d ini typed lks f argv s dir p names mode ext files nums ctl SY FK MD XE ST D ND PP PE SD SOME AN PI KF MC C LK IND H0.
  pose proof (C54_offered_partial d p ext names PP PE D ND) as OFF. split; [exact OFF|].
  assert (NE : shown d p ext <> []).
  { destruct SOME as (n & I & E & V). intros Q. assert (X : In (p ++ [n]) (shown d p ext)) by (apply OFF; exists n; auto). rewrite Q in X. destruct X. }
  apply (command_files kord cwd d ini typed lks f argv s [dir] mode ext files ctl); auto.
  destruct (C53_chosen cwd d dir p names ext typed ST D NE) as (CH & _). specialize (CH nums AN).
  clear - PI CH. revert CH. generalize (make_list_of_source_files cwd d [dir] ext typed). induction PI as [|i q is ps G N PI IH|i is ps O PI IH]; intros l CH.
  - inversion CH. reflexivity.
  - inversion CH as [|i' q' is' ps' G' N' CH' E1 E2|i' is' ps' O' CH' E1 E2]; subst.
    + f_equal; [congruence|]. apply IH. exact CH'.
    + exfalso. destruct O' as [O'|O']; [lia|]. apply nth_error_None_lt in N. unfold zlen in O'. lia.
  - inversion CH as [|i' q' is' ps' G' N' CH' E1 E2|i' is' ps' O' CH' E1 E2]; subst.
    + exfalso. destruct O as [O|O]; [lia|]. apply nth_error_None_lt in N'. unfold zlen in O. lia.
    + apply IH. exact CH'.
Qed.
Print Assumptions C60_directory.

(** With the defaults.ini of the repository and no other INI file, the controls of C60_command
    are those of the documentation; with addons.ini likewise. *)
Theorem C60_shipped : forall kord (ini : string -> ini_file) name, walk_keys kord ->
  ini "defaults.ini" = parse_ini shipped_defaults -> ini name = parse_ini shipped_addons ->
  (exists ctl, main_controls kord (ini "defaults.ini") (option_map ini None) = Ok (Some ctl) /\ controls_ok (box_margo ctl) /\
     shipped_margo false false (box_margo ctl) /\ box_json ctl = all_json true) /\
  (exists ctl, main_controls kord (ini "defaults.ini") (option_map ini (Some name)) = Ok (Some ctl) /\ controls_ok (box_margo ctl) /\
     shipped_margo true true (box_margo ctl) /\ box_json ctl = all_json false).
Proof.
  intros kord ini name W -> E. cbn [option_map]. rewrite E. destruct (C58_shipped kord W) as ((m1 & -> & S1) & (m2 & -> & S2)).
  split; eexists; (split; [reflexivity|]); cbn [box_margo box_json]; split; try exact (proj2 (proj2 (proj2 (proj2 S1)))); try exact (proj2 (proj2 (proj2 (proj2 S2)))); auto.
Qed.
Print Assumptions C60_shipped.

(** A command line that says nothing, or a format that is not known, changes no file. *)
Theorem C60_nothing : forall kord cwd d ini typed lks f argv,
  (forall s srcs, says argv s srcs -> ~ formats_known s) ->
  (exists code, program kord cwd d ini typed lks f argv = Exited code /\ (code = 0 \/ code = 2)) \/
  (exists e, program kord cwd d ini typed lks f argv = Ran f [] (Some e)).
Proof.
  intros kord cwd d ini typed lks f argv N. unfold program. destruct (snd (init_from_file kord controls_init (ini DEFAULT_CONFIG))) as [|e]; [|right; exists e; reflexivity].
  left. destruct (parse_args argv) as [n| | |] eqn:A; [|exists 0; auto|exists 2; auto|exists 2; auto].
  exfalso. apply C59_exact in A as (s & srcs & SY & FK & _). exact (N s srcs SY FK).
Qed.
Print Assumptions C60_nothing.

(** A command given as one text: words with single spaces between. *)
Theorem C60_text : forall kord cwd d ini typed lks f words t, joined blank (map chars words) (chars t) ->
  main_text kord cwd d ini typed lks f t = program kord cwd d ini typed lks f words.
Proof.
  intros kord cwd d ini typed lks f words t J. unfold main_text. f_equal.
  assert (S : forall s, joined blank (map chars (split_blank s)) (chars s)).
  { clear. induction s as [|c s IH]; cbn [split_blank]; [apply last_word; intros []|].
    destruct (Ascii.eqb_spec c blank) as [->|N].
    - apply (more_words blank [] (map chars (split_blank s)) (chars s)); [intros []|exact IH].
    - destruct (split_blank s) as [|w ws]; [inversion IH|]. cbn [map] in *. change (chars (String c w)) with (c :: chars w). change (chars (String c s)) with (c :: chars s).
      inversion IH as [w' NI E1 E2|w' ws' t NI J E1 E2].
      + destruct ws; [|discriminate]. cbn [map]. apply last_word. intros [Q|Q]; [congruence|contradiction].
      + change (joined blank ((c :: chars w) :: map chars ws) ((c :: chars w) ++ blank :: t)). apply more_words; [|exact J]. intros [Q|Q]; [congruence|contradiction]. }
  apply map_chars_inj. exact (joined_unique blank ascii_dec _ _ (S t) _ J).
Qed.
Print Assumptions C60_text.

(** It is not true that further spaces make no difference: a space after the name of a directory
    makes the command convert nothing, and two spaces before a value make it fail. *)
Definition blanks_fs : fs := fun p => match p with ["home"; "a.rtcm3"] | ["home"; ".b.rtcm3"] | ["home"; "c.txt"] => Some [] | _ => None end.
Definition shipped_ini : string -> ini_file := fun name => if String.eqb name "defaults.ini" then parse_ini shipped_defaults else Missing.
Theorem C60_spaces_refuted : exists cwd d f typed,
  let go := main_text ident cwd d shipped_ini typed (fun _ => sample_luck []) f in
  same_disk d f /\
  (exists f', go "." = Ran f' [Finished WithoutErrors] None) /\ go ". " = Ran f [] None /\
  (exists f', go "-o JSON a.rtcm3" = Ran f' [Finished WithoutErrors] None) /\ go "-o  JSON a.rtcm3" = Exited 2.
Proof.
  exists ["home"], folder_disk, blanks_fs, [49]. cbv zeta. split.
  { intros p. unfold folder_disk, blanks_fs.
    repeat match goal with |- context [match ?x with _ => _ end] => is_var x; destruct x end; split; intros; congruence. }
  assert (T : forall go : ended, match go with Ran _ [Finished WithoutErrors] None => true | _ => false end = true -> exists f', go = Ran f' [Finished WithoutErrors] None).
  { intros [|f' [|[| | |[]] [|]] [|]] H; try discriminate H. eauto. }
  split; [apply T; vm_compute; reflexivity|]. split; [|split; [apply T; vm_compute; reflexivity|vm_compute; reflexivity]].
  vm_compute. reflexivity.
Qed.
Print Assumptions C60_spaces_refuted.

(** A case of C60_command: two sources, one of them with a roundabout name, a name without a
    file, and the controls of the repository. *)
Definition d_disk : disk := fun p =>
  match sample_fs p with
  | Some _ => KFile
  | None => if path_eqb p ["d"] then KDir ["a.rtcm3"; "b.rtcm3"] else KNone
  end.
Example C60_nonvacuous :
  let argv := ["a.rtcm3"; "x/../../d//b.rtcm3"; "nothing"; "--output=JARGO"] in
  let files := [["d"; "a.rtcm3"]; ["d"; "b.rtcm3"]] in
  let run := program ident ["d"] d_disk shipped_ini [] (fun _ => sample_luck []) sample_fs argv in
  exists s srcs mode ctl,
    says argv s srcs /\ formats_known s /\ Some mode = last_of Format s (Some "MARGO") /\
    existing ["d"] d_disk srcs files /\ (forall x p ns, srcs = [x] -> stands_for ["d"] x p -> d_disk p <> KDir ns) /\ same_disk d_disk sample_fs /\
    main_controls ident (shipped_ini "defaults.ini") (option_map shipped_ini (last_of Ini s None)) = Ok (Some ctl) /\ controls_ok (box_margo ctl) /\
    lucky (sample_luck []) /\ independent mode files /\
    (forall src content, In src files -> sample_fs (work_folder src mode) = None /\ (sample_fs src = Some content -> bytes_ok content)) /\
    match run with
    | Ran f' outs x => outs = [Finished WithoutErrors; Finished WithoutErrors] /\ x = None /\
        map (PropertiesFiles.present f') [["d"; "a-JARGO"; "BASE"; "RefPoint-1005.json"]; ["d"; "b-JARGO"; "BASE"; "TextStr-1029.json"]; ["d"; "b-JARGO"; "BASE"; "RefPoint-1005.json"]] = [true; true; false]
    | _ => False
    end.
Proof.
  cbv zeta.
  assert (X : forall a b : ini_file, let ini := fun n => if String.eqb n "x" then a else b in ini "defaults.ini" = b /\ ini "x" = a) by (intros; split; reflexivity).
  specialize (X (parse_ini shipped_addons) (parse_ini shipped_defaults)). cbv zeta in X. revert X.
  generalize (fun n => if String.eqb n "x" then parse_ini shipped_addons else parse_ini shipped_defaults). intros ini (X1 & X2).
  destruct (C60_shipped ident ini "x" ident_walk X1 X2) as ((ctl & MC & CO & _) & _). rewrite X1 in MC. change (option_map ini None) with (@None ini_file) in MC.
  assert (SH : shipped_ini "defaults.ini" = parse_ini shipped_defaults) by (unfold shipped_ini; change (String.eqb "defaults.ini" "defaults.ini") with true; cbv iota; reflexivity).
  exists [(Format, "JARGO")], ["a.rtcm3"; "x/../../d//b.rtcm3"; "nothing"], "JARGO", ctl.
  split; [|split; [|split; [reflexivity|split; [|split; [|split; [|split; [rewrite SH; exact MC|split; [exact CO|split; [|split; [|split]]]]]]]]]].
  - exists [], [(Format, "JARGO")], [], ["a.rtcm3"; "x/../../d//b.rtcm3"; "nothing"], ["--output=JARGO"].
    split; [reflexivity|]. split; [reflexivity|]. split; [constructor|]. split; [apply (one_more Format "JARGO" ["--output=JARGO"]); [|constructor]|].
    + apply (with_equals Format "JARGO" "--output"). right; left; reflexivity.
    + split; [discriminate|]. left. split; [reflexivity|].
      assert (W : forall c r, Ascii.eqb c minus = false -> plain (String c r)) by (intros c r N; apply plain_word, Ascii.eqb_neq, N).
      repeat (apply Forall_cons; [apply W; reflexivity|]). apply Forall_nil.
  - intros v [E|[]]. injection E as <-. do 3 right. left. reflexivity.
  - apply a_file; [exact (abspath_stands ["d"] "a.rtcm3")|reflexivity|]. apply a_file; [exact (abspath_stands ["d"] "x/../../d//b.rtcm3")|reflexivity|].
    apply (no_file _ _ _ ["d"; "nothing"]); [exact (abspath_stands ["d"] "nothing")|discriminate|constructor].
  - discriminate.
  - intros p. unfold d_disk. destruct (sample_fs p); [split; congruence|]. destruct (path_eqb p ["d"]); split; congruence.
  - exact (proj1 C56_nonvacuous).
  - intros x y X Y. clear - X Y. apply (proj1 (proj2 C56_nonvacuous)); cbn in *; tauto.
  - intros src content [<-|[<-|[]]]; (split; [reflexivity|]); clear; intros E; cbn in E; injection E as <-; apply bytes_okb_ok; vm_compute; reflexivity.
  - vm_compute. repeat split.
Qed.

(** A case of C60_directory. *)
Example C60_directory_nonvacuous :
  let files := [["d"; "b.rtcm3"]; ["d"; "a.rtcm3"]] in
  says ["-oJARGO"; "."] [(Format, "JARGO")] ["."] /\ stands_for ["d"] "." ["d"] /\ d_disk ["d"] = KDir ["a.rtcm3"; "b.rtcm3"] /\
  Forall SourcesSpec.plain ["d"] /\ SourcesSpec.plain "rtcm3" /\ has_extension "rtcm3" "a.rtcm3" /\ visible "a.rtcm3" /\
  (exists nums, answer_says (ustr "2 1 9") nums /\ picks (shown d_disk ["d"] "rtcm3") nums files) /\
  (forall src, In src files -> d_disk src = KFile) /\ independent "JARGO" files /\
  match program ident ["d"] d_disk shipped_ini (ustr "2 1 9") (fun _ => sample_luck []) sample_fs ["-oJARGO"; "."] with
  | Ran f' outs x => outs = [Finished WithoutErrors; Finished WithoutErrors] /\ x = None /\
      map (PropertiesFiles.present f') [["d"; "a-JARGO"; "BASE"; "RefPoint-1005.json"]; ["d"; "b-JARGO"; "BASE"; "TextStr-1029.json"]] = [true; true]
  | _ => False
  end.
Proof.
  cbv zeta. assert (ST : stands_for ["d"] "." ["d"]) by exact (abspath_stands ["d"] ".").
  split.
  { exists [(Format, "JARGO")], [], ["-oJARGO"], ["."], []. split; [reflexivity|]. split; [reflexivity|]. split.
    - apply (one_more Format "JARGO" ["-oJARGO"]); [|constructor]. apply (glued Format "JARGO" "-o" (ascii_of_nat 74) "ARGO"); [left; reflexivity|reflexivity|discriminate].
    - split; [constructor|]. split; [discriminate|]. left. split; [reflexivity|]. apply Forall_cons; [apply plain_word; discriminate|apply Forall_nil]. }
  split; [exact ST|]. split; [reflexivity|].
  assert (PL : forall s, has_magic s = false -> SourcesSpec.plain s).
  { intros s H c I. unfold has_magic in H. assert (M : magic_char c = false).
    { destruct (magic_char c) eqn:E; [|reflexivity]. rewrite (proj2 (existsb_exists _ _)) in H; [discriminate|]. exists c. auto. }
    unfold magic_char in M. rewrite !orb_false_iff, !Ascii.eqb_neq in M. tauto. }
  split; [constructor; [apply PL; reflexivity|constructor]|]. split; [apply PL; reflexivity|]. split; [exists "a"; reflexivity|]. split; [discriminate|].
  split; [|split; [|split]].
  - assert (E : exists is, indexes 2 (split_space (ustr "2 1 9")) = Ok is) by (eexists; vm_compute; reflexivity). destruct E as (is & E).
    destruct (indexes_inv _ _ _ E) as (nums & F). exists nums.
    assert (AN : answer_says (ustr "2 1 9") nums) by (exists (split_space (ustr "2 1 9")); split; [apply split_space_joined|exact F]).
    split; [exact AN|].
    destruct (C53_chosen ["d"] d_disk "." ["d"] ["a.rtcm3"; "b.rtcm3"] "rtcm3" (ustr "2 1 9") ST eq_refl ltac:(vm_compute; discriminate)) as (CH & _).
    specialize (CH nums AN). assert (Q : make_list_of_source_files ["d"] d_disk ["."] "rtcm3" (ustr "2 1 9") = [["d"; "b.rtcm3"]; ["d"; "a.rtcm3"]]) by (vm_compute; reflexivity).
    rewrite Q in CH. exact CH.
  - intros src [<-|[<-|[]]]; reflexivity.
  - intros x y X Y. clear - X Y. apply (proj1 (proj2 C56_nonvacuous)); cbn in *; tauto.
  - vm_compute. repeat split.
Qed.
