(** * SessionModel: model of logger.py and of [main] in run_conversion.py. *)
From Verif Require Import PyBase PyDict PyVal FramerModel DecoderModel MargoModel JsonModel PrinterModel MainModel ControlsModel.
Local Open Scope string_scope.
Local Open Scope list_scope.
Local Open Scope Z_scope.

(** ** logger.py *)

(** Severity levels; PROGRESS is the level CRITICAL under another name (logger.py:30-31). *)
Inductive level := LDebug | LInfo | LWarning | LError | LCritical.
Definition level_name (l : level) : string :=
  match l with LDebug => "DEBUG" | LInfo => "INFO" | LWarning => "WARNING" | LError => "ERROR" | LCritical => "PROGRESS" end.

(** logger.py:17-21 [LoggerConsFile].  [lg_files]: the files of the file handlers that the object
    [logging.getLogger(...)] has; this object outlives [deinit].  The console handlers are not
    modelled. *)
Record logger := { lg_files : list path; lg_ready : bool }.
Definition logger_init : logger := {| lg_files := []; lg_ready := false |}.

(** logger.py:23-56 [init_2CH].  ([FileHandler(path, "a")] is assumed to open the file.) *)
Definition init_2CH (l : logger) (file : path) : logger * res unit :=
  if lg_ready l then (l, Err EAssert)
  else ({| lg_files := lg_files l ++ [file]; lg_ready := true |}, Ok tt).
(** logger.py:58-65 [deinit] *)
Definition deinit (l : logger) : logger :=
  if lg_ready l then {| lg_files := []; lg_ready := false |} else l.

(** logger.py:37-48: format and level of the file handler *)
Definition log_line (m : level * text) : text :=
  ustr "RTCMDEC:" ++ ustr (level_name (fst m)) ++ ustr ": " ++ snd m ++ [10].
Definition to_file (l : level) : bool := match l with LDebug => false | _ => true end.
(** Text added at the end of files that exist. (logger.py, the file handlers) *)
Definition append_to (files : list path) (t : text) (f : fs) : fs :=
  fun p => if existsb (path_eqb p) files then option_map (fun c => c ++ t) (f p) else f p.
(** logger.py:67-95 [debug], [info], [warning], [error], [critical], [progress].  Every handler
    writes the record.  (Content of logs: code points, not bytes.) *)
Definition log (l : logger) (m : level * text) (f : fs) : fs :=
  if lg_ready l then if to_file (fst m) then fold_left (fun f file => append_to [file] (log_line m) f) (lg_files l) f else f
  else f.
Definition log_all (l : logger) (ms : list (level * text)) (f : fs) : fs := fold_left (fun f m => log l m f) ms f.

(** ** run_conversion.py *)

(** What the operating system does to the conversion of one source, and what is not modelled in
    it: deletion of the old work folder ([Some keep]: it fails, and the files that [keep] selects
    remain), creation of the new one, creation of the log ([Some true]: done; [Some false]:
    refused; [None]: it fails after the file has been made), creation of output files, exceptions
    during decoding, the order in which printers are walked, and the messages that are logged by
    everything below [main]. (run_conversion.py:308-350) *)
Record luck := {
  lk_rmtree : option (path -> bool); lk_mkdir : bool; lk_log : option bool; lk_os : os;
  lk_faults : nat -> option fault; lk_ord : list (subprinter world) -> list (subprinter world);
  lk_messages : list (level * text) }.

(** run_conversion.py:32-58 [create_work_folder]; false: [return None].  ([f fld] is a regular
    file in the place of the folder: [isdir] is false and [makedirs] fails.) *)
Definition create_work_folder (mode : string) (lk : luck) (f : fs) (src : path) : fs * bool :=
  let fld := work_folder src mode in
  match f fld with
  | Some _ => (f, false)
  | None =>
      match lk_rmtree lk with
      | Some keep => ((fun p => if inside fld p && negb (keep p) then None else f p), false)
      | None => (rmtree fld f, lk_mkdir lk)
      end
  end.

Definition fs_set (f : fs) (p : path) (c : list Z) : fs := fun q => if path_eqb q p then Some c else f q.
(** run_conversion.py:88-91 *)
Definition welcome : text := ustr "New log file was created." ++ [10] ++ ustr "-------------------------" ++ [10].
(** run_conversion.py:75-95 [init_logger] *)
Definition init_logger (lk : luck) (f : fs) (l : logger) (file : path) : fs * logger * res unit :=
  match lk_log lk with
  | Some false => (f, l, Ok tt)
  | None => (fs_set f file [], l, Err EOS)
  | Some true => let '(l, r) := init_2CH l file in (fs_set f file welcome, l, r)
  end.

(** How the conversion of one source ends. (run_conversion.py:308-350) *)
Inductive outcome := NoFolder | NoControls | NoConverter | Finished (st : status).
(** run_conversion.py:337-348 *)
Definition closing_message (st : status) : level * text :=
  match st with
  | WithErrors => (LCritical, ustr "Finished with errors.")
  | WithoutErrors => (LCritical, ustr "Finished without errors.")
  | Terminated => (LError, ustr "Decoding was terminated.")
  end.
(** run_conversion.py:325 *)
Definition no_controls_message : level * text := (LError, ustr "Conversion aborted. No valid controls.").
(** run_conversion.py:333 *)
Definition no_converter_message : level * text := (LError, ustr "Conversion aborted. Converter hasn't been created.").
(** run_conversion.py:317 *)
Definition log_path (mode : string) (src : path) : path := work_folder src mode ++ [log_file_name src].

(** run_conversion.py:306-350: one pass of the loop. *)
Definition convert_one (mode : string) (ctl : option boxed_controls) (lk : luck) (f : fs) (l : logger) (src : path)
  : fs * logger * res outcome :=
  match create_work_folder mode lk f src with
  | (f, false) => (f, l, Ok NoFolder)
  | (f, true) =>
      match init_logger lk f l (log_path mode src) with
      | (f, l, Err e) => (f, l, Err e)
      | (f, l, Ok _) =>
          match ctl with
          | None => (log l no_controls_message f, deinit l, Ok NoControls)
          | Some ctl =>
              match factory mode true (lk_os lk) ctl with
              | Err e => (log_all l (lk_messages lk) f, l, Err e)
              | Ok None => (log l no_converter_message (log_all l (lk_messages lk) f), deinit l, Ok NoConverter)
              | Ok (Some c) =>
                  let '(s, r) := decode_rtcm_file (lk_ord lk) (lk_faults lk)
                                   (match f src with Some content => regular_file content | None => None end) (started c) in
                  let f := log_all l (lk_messages lk) (put (work_folder src mode) (output_files (r_world s)) f) in
                  match r with
                  | Err e => (f, l, Err e)
                  | Ok b => let st := closing b (get_statistics (r_conv s)) in
                            (log l (closing_message st) f, deinit l, Ok (Finished st))
                  end
              end
          end
      end
  end.

(** run_conversion.py:306-350: the loop.  Result: how the sources ended, and the exception that
    ended the loop, if any. *)
Fixpoint convert_loop (mode : string) (ctl : option boxed_controls) (f : fs) (l : logger) (jobs : list (path * luck))
  : fs * logger * (list outcome * option exn) :=
  match jobs with
  | [] => (f, l, ([], None))
  | (src, lk) :: r =>
      match convert_one mode ctl lk f l src with
      | (f, l, Err e) => (f, l, ([], Some e))
      | (f, l, Ok o) =>
          let '(f, l, (os, x)) := convert_loop mode ctl f l r in (f, l, (o :: os, x))
      end
  end.

(** run_conversion.py:285-302: the controls; [user] is the file of the option -i, if given. *)
Definition main_controls (kord : list text -> list text) (defaults : ini_file) (user : option ini_file) : res (option boxed_controls) :=
  let boxed st := option_map (fun mj => {| box_margo := fst mj; box_json := snd mj |}) (pub_boxed st) in
  let '(st, r) := init_from_file kord controls_init defaults in
  _ <- r ;;
  match user with
  | None => Ok (boxed st)
  | Some u => let '(st, r) := update_from_file kord st u in _ <- r ;; Ok (boxed st)
  end.

(** run_conversion.py:282-350 [main], after the arguments have been parsed: [mode] is one of the
    four names the parser accepts, [jobs] the sources found by [make_list_of_source_files]. *)
Definition main (kord : list text -> list text) (defaults : ini_file) (user : option ini_file) (mode : string)
    (f : fs) (jobs : list (path * luck)) : fs * logger * (list outcome * option exn) :=
  match main_controls kord defaults user with
  | Err e => (f, logger_init, ([], Some e))
  | Ok ctl => convert_loop mode ctl f logger_init jobs
  end.
