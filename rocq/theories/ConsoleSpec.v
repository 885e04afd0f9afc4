(** * ConsoleSpec: what the user is supposed to see (C64, C65). *)
From Verif Require Import PyBase PyDict PyVal PyFormat MainModel ControlsModel SessionModel SessionSpec SourcesModel SourcesSpec LogModel LogSpec FullModel FullSpec ConsoleModel.
Local Open Scope string_scope.
Local Open Scope list_scope.
Local Open Scope Z_scope.

(** The records that are shown besides being written to the log. *)
Definition serious (m : line) : bool :=
  match fst m with LWarning => true | LError => true | LCritical => true | LInfo => false | LDebug => false end.

Definition heading (shown : text) : list shown_line :=
  [Printed (ustr "--------------------------------------------------------------------------------");
   Printed (ustr "Started decoding: " ++ shown)].

(** The last record about a source. *)
Definition verdict (o : outcome) : list line :=
  match o with
  | NoFolder => []
  | NoControls => [(LError, ustr "Conversion aborted. No valid controls.")]
  | NoConverter => [(LError, ustr "Conversion aborted. Converter hasn't been created.")]
  | Finished WithoutErrors => [(LCritical, ustr "Finished without errors.")]
  | Finished WithErrors => [(LCritical, ustr "Finished with errors.")]
  | Finished Terminated => [(LError, ustr "Decoding was terminated.")]
  end.

(** What is shown about a source: that its folder cannot be made; or that its log cannot be made,
    and nothing more; or the serious ones of the records in its log (the third argument). *)
Inductive block (shown : text) : outcome -> option (list line) -> list shown_line -> Prop :=
| block_no_folder why reason :
    why = "Work folder wasn't created" \/ why = "There was an error during directory deletion." ->
    block shown NoFolder None (heading shown ++ [Printed (ustr why); Printed reason])
| block_no_log o reason : o <> NoFolder ->
    block shown o None (heading shown ++
      [Printed (ustr "Created work folder."); Printed (ustr "Failed to create log file."); Printed reason])
| block_log o ms : o <> NoFolder ->
    block shown o (Some (ms ++ verdict o)) (heading shown ++
      [Printed (ustr "Created work folder."); Printed (ustr "New log file was created.")] ++
      map Logged (filter serious (ms ++ verdict o))).

(** Shown beside a file in the list of a directory. *)
Definition numbered_line (repr : path -> text) (n : Z) (p : path) (t : shown_line) : Prop :=
  exists pad, (pad = [] \/ pad = [32]) /\ t = Printed (pad ++ number n ++ ustr " : " ++ repr p).

(** The named files that do not exist, in order. *)
Inductive lacking (cwd : path) (d : disk) : list string -> list path -> Prop :=
| lacks_no_more : lacking cwd d [] []
| lacks_not s p r q : stands_for cwd s p -> d p = KFile -> lacking cwd d r q -> lacking cwd d (s :: r) q
| lacks_one s p r q : stands_for cwd s p -> d p <> KFile -> lacking cwd d r q -> lacking cwd d (s :: r) (p :: q).

(** The words for an outcome other than a conversion without errors. *)
Definition told_failed (o : outcome) (b : list shown_line) : Prop :=
  match o with
  | NoFolder => In (Printed (ustr "Work folder wasn't created")) b \/ In (Printed (ustr "There was an error during directory deletion.")) b
  | NoControls => In (Logged (LError, ustr "Conversion aborted. No valid controls.")) b
  | NoConverter => In (Logged (LError, ustr "Conversion aborted. Converter hasn't been created.")) b
  | Finished WithoutErrors => False
  | Finished WithErrors => In (Logged (LCritical, ustr "Finished with errors.")) b
  | Finished Terminated => In (Logged (LError, ustr "Decoding was terminated.")) b
  end.

(** An INI file without any section (nothing but, perhaps, DEFAULT), or no file at all. *)
Definition says_nothing (f : ini_file) : Prop :=
  match f with Missing => True | Parsed i => i_sections i = [] | Broken _ => False end.

(** What is shown about an INI file that cannot be used. *)
Definition complaint (name : string) : shown_line := Printed (ustr "INI file " ++ ustr name ++ ustr " is corrupted or empty.").
