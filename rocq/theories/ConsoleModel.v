(** * ConsoleModel: what the program shows on the console.

    The functions of SessionModel, SourcesModel and ProgramModel once more, each with what it
    prints and what the console handler of the logger shows, in this order. *)
From Verif Require Import PyBase PyDict PyVal DecoderModel MargoModel JsonModel PrinterModel MainModel ControlsModel SessionModel SourcesModel ArgsModel ProgramModel LogModel FullModel PyFormat.
Local Open Scope string_scope.
Local Open Scope list_scope.
Local Open Scope Z_scope.

(** A line printed with [print], a question of [input], a record shown by a console handler.
    (Simplification: the usage, help and version texts of argparse and the traceback of an exception
    that ends the program are not modelled; nor is the text of a record, which is that in the log
    file, logger.py:37-48.) *)
Inductive shown_line := Printed (t : text) | Asked (t : text) | Logged (m : level * text).

(** logger.py:35-38: the console handler. *)
Definition to_console (l : level) : bool := match l with LDebug | LInfo => false | _ => true end.
(** logger.py:49-51, 64: console handlers are added and cleared together with file handlers, so
    there are as many; every one of them shows the record. *)
Definition log_shown (l : logger) (m : level * text) : list shown_line :=
  if lg_ready l then if to_console (fst m) then repeat (Logged m) (length (lg_files l)) else [] else [].
Definition log_all_shown (l : logger) (ms : list (level * text)) : list shown_line := flat_map (log_shown l) ms.

Section Console.
Variable tx : texts.
(** Texts that are not modelled: [repr] of a path, and the texts of exceptions when a folder or a
    log is made. *)
Variable repr_text : path -> text.
Variable folder_text log_text : path -> text.

(** run_conversion.py:32-58 [create_work_folder] *)
Definition create_work_folder_shown (mode : string) (lk : luck) (f : fs) (src : path) : list shown_line :=
  let fld := work_folder src mode in
  let not_created := [Printed (ustr "Work folder wasn't created"); Printed (folder_text fld)] in
  match f fld with
  | Some _ => not_created
  | None =>
      match lk_rmtree lk with
      | Some _ => [Printed (ustr "There was an error during directory deletion."); Printed (folder_text fld)]
      | None => if lk_mkdir lk then [Printed (ustr "Created work folder.")] else not_created
      end
  end.

(** run_conversion.py:75-95 [init_logger] *)
Definition init_logger_shown (lk : luck) (file : path) : list shown_line :=
  match lk_log lk with
  | Some false => [Printed (ustr "Failed to create log file."); Printed (log_text file)]
  | None => []
  | Some true => [Printed (ustr "New log file was created.")]
  end.

(** run_conversion.py:306-350: one pass of the loop. *)
Definition convert_one_shown (mode : string) (ctl : option boxed_controls) (lk : luck) (f : fs) (l : logger) (src : path) : list shown_line :=
  [Printed (ustr (String.concat "" (repeat "-" 80))); Printed (ustr "Started decoding: " ++ tx_source tx src)] ++
  create_work_folder_shown mode lk f src ++
  match create_work_folder mode lk f src with
  | (f, false) => []
  | (f, true) =>
      init_logger_shown lk (log_path mode src) ++
      match init_logger lk f l (log_path mode src) with
      | (f, l, Err e) => []
      | (f, l, Ok _) =>
          match ctl with
          | None => log_shown l no_controls_message
          | Some ctl =>
              match factory mode true (lk_os lk) ctl with
              | Err e => log_all_shown l (lk_messages lk)
              | Ok None => log_all_shown l (lk_messages lk) ++ log_shown l no_converter_message
              | Ok (Some c) =>
                  let '(s, r) := decode_rtcm_file (lk_ord lk) (lk_faults lk)
                                   (match f src with Some content => regular_file content | None => None end) (started c) in
                  log_all_shown l (lk_messages lk) ++
                  match r with
                  | Err e => []
                  | Ok b => log_shown l (closing_message (closing b (get_statistics (r_conv s))))
                  end
              end
          end
      end
  end.

(** run_conversion.py:306-350: the loop. *)
Fixpoint convert_loop_shown (mode : string) (ctl : option boxed_controls) (f : fs) (l : logger) (jobs : list (path * luck)) : list shown_line :=
  match jobs with
  | [] => []
  | (src, lk) :: r =>
      let lk := with_messages lk (own_messages tx mode ctl lk f l src) in
      convert_one_shown mode ctl lk f l src ++
      match convert_one mode ctl lk f l src with
      | (f, l, Err e) => []
      | (f, l, Ok o) => convert_loop_shown mode ctl f l r
      end
  end.

(** controls.py:44-51 [_read_ini] *)
Definition read_ini_shown (st : controls) (name : string) (f : ini_file) : list shown_line :=
  match snd (read_ini st f) with
  | Ok false => [Printed (ustr "INI file " ++ ustr name ++ ustr " is corrupted or empty.")]
  | _ => []
  end.

(** The format [{n:2d}] for a number that is not negative. (run_conversion.py:264) *)
Definition in_two (n : Z) : text := let t := py_int_str n in if Nat.ltb (length t) 2 then 32 :: t else t.
(** run_conversion.py:222-276 [make_list_of_source_files] *)
Definition sources_shown (cwd : path) (d : disk) (args : list string) (rtcm_ext : string) (typed : text) : list shown_line :=
  if src_is_dir cwd d args then
    let path := abspath cwd (hd "" args) in
    let fpattern := ustr "*." ++ ustr rtcm_ext in
    match SourcesModel.shown d path rtcm_ext with
    | [] => [Printed (ustr "There are no files matching " ++ fpattern ++ ustr " in " ++ tx_source tx path ++ ustr ".")]
    | files =>
        [Printed (ustr "Found " ++ py_int_str (zlen files) ++ ustr " files matching " ++ fpattern ++ ustr " pattern:")] ++
        map (fun x => Printed (in_two (Z.of_nat (fst x)) ++ ustr " : " ++ repr_text (snd x))) (combine (seq 1 (length files)) files) ++
        [Asked (ustr "Please, select source files (use indexes and spaces):")] ++
        match indexes (zlen files) (split_space typed) with
        | Ok _ => []
        | Err _ => [Printed (ustr "Incorrect input. Use space separated indexes.")]
        end
    end
  else
    flat_map (fun a => let p := abspath cwd a in
                       if isfile d p then [] else [Printed (tx_source tx p ++ ustr " is not a file.")]) args.

(** run_conversion.py:282-350 [main] *)
Definition program_shown (kord : list text -> list text) (cwd : path) (d : disk) (ini : string -> ini_file) (typed : text)
    (lks : nat -> luck) (f : fs) (argv : list string) : list shown_line :=
  let '(st, r) := init_from_file kord controls_init (ini DEFAULT_CONFIG) in
  read_ini_shown controls_init DEFAULT_CONFIG (ini DEFAULT_CONFIG) ++
  match r with
  | Err e => []
  | Ok _ =>
      match parse_args argv with
      | Accepted {| n_format := mode; n_ini := u; n_ext := ext; n_source := Some srcs |} =>
          match u with
          | None => []
          | Some name =>
              [Printed (ustr "Loading controls from: " ++ ustr name)] ++
              (if ct_ini_ok st then read_ini_shown st name (ini name) else [])
          end ++
          match main_controls kord (ini DEFAULT_CONFIG) (option_map ini u) with
          | Err e => []
          | Ok ctl =>
              let files := make_list_of_source_files cwd d srcs ext typed in
              sources_shown cwd d srcs ext typed ++
              convert_loop_shown mode ctl f logger_init (combine files (map lks (seq 0 (length files))))
          end
      | _ => []
      end
  end.
End Console.
