(** * SessionSpec: what a run of the program leaves (C51, C52, C55, C56). *)
From Verif Require Import PyBase PyDict PyVal MargoModel JsonModel PrinterModel MainModel MainSpec ControlsModel ControlsSpec SessionModel.
Local Open Scope string_scope.
Local Open Scope list_scope.
Local Open Scope Z_scope.

(** The lines of a log, for messages logged in this order. *)
Definition lines (ms : list (level * text)) : text :=
  flat_map (fun m => match fst m with
                     | LDebug => []
                     | l => ustr "RTCMDEC:" ++
                            ustr (match l with LInfo => "INFO" | LWarning => "WARNING" | LError => "ERROR" | LCritical => "PROGRESS" | LDebug => "" end) ++
                            ustr ": " ++ snd m ++ ustr (String (Ascii.ascii_of_nat 10) "")
                     end) ms.
Definition header : text :=
  flat_map (fun s => ustr s ++ ustr (String (Ascii.ascii_of_nat 10) "")) ["New log file was created."; "-------------------------"].
(** The whole log of the conversion of one source: header, the messages of its own conversion,
    how it ended. *)
Definition whole_log (messages : list (level * text)) (o : outcome) : text :=
  header ++
  match o with
  | NoFolder => []
  | NoControls => lines [(LError, ustr "Conversion aborted. No valid controls.")]
  | NoConverter => lines (messages ++ [(LError, ustr "Conversion aborted. Converter hasn't been created.")])
  | Finished WithoutErrors => lines (messages ++ [(LCritical, ustr "Finished without errors.")])
  | Finished WithErrors => lines (messages ++ [(LCritical, ustr "Finished with errors.")])
  | Finished Terminated => lines (messages ++ [(LError, ustr "Decoding was terminated.")])
  end.

(** No trouble with folders, log, output files, interruptions. *)
Definition lucky (lk : luck) : Prop :=
  lk_rmtree lk = None /\ lk_mkdir lk = true /\ lk_log lk <> None /\ (forall n p, lk_os lk n p = true) /\
  lk_faults lk = no_faults /\ PrinterSpec.walk (lk_ord lk).
