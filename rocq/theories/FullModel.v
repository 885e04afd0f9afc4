(** * FullModel: the whole program with the logs it writes.

    SessionModel takes the messages that are logged below [main] as given; here they are those
    of LogModel. *)
From Verif Require Import PyBase PyDict PyVal DecoderModel MargoModel JsonModel PrinterModel MainModel ControlsModel SessionModel SourcesModel ArgsModel ProgramModel LogModel.
Local Open Scope string_scope.
Local Open Scope list_scope.
Local Open Scope Z_scope.

(** Texts that are not modelled: of exceptions, of paths and names of classes as they are shown,
    and what an operation has logged when an exception arrives while it runs; [tx_missing]: a
    source that cannot be opened is reported as missing.
    (what run_conversion.py and the printers show of exceptions and paths) *)
Record texts := {
  tx_why : list Z -> exn -> text; tx_path : string -> text; tx_error : string -> text; tx_assertion : rtcm_obj -> text;
  tx_class : string -> text; tx_source : path -> text; tx_exn : exn -> text; tx_stray : nat -> list line; tx_missing : bool }.

(** puts the lines of LogModel into a run of run_conversion.py:308-350 *)
Definition with_messages (lk : luck) (ms : list line) : luck :=
  {| lk_rmtree := lk_rmtree lk; lk_mkdir := lk_mkdir lk; lk_log := lk_log lk; lk_os := lk_os lk;
     lk_faults := lk_faults lk; lk_ord := lk_ord lk; lk_messages := ms |}.

Section Texts.
Variable tx : texts.

(** run_conversion.py:322-335: what [decode_rtcm_file] logs for a source.  (The construction of a
    converter, converter_top.py:196-292, logs nothing when it succeeds; it does for the four modes
    that the parser accepts.) *)
Definition own_messages (mode : string) (ctl : option boxed_controls) (lk : luck) (f : fs) (l : logger) (src : path) : list line :=
  match create_work_folder mode lk f src, ctl with
  | (f, true), Some ctl =>
      match init_logger lk f l (log_path mode src), factory mode true (lk_os lk) ctl with
      | (f, _, Ok _), Ok (Some c) =>
          snd (fst (decode_rtcm_file_log (tx_why tx) (tx_path tx) (tx_error tx) (tx_assertion tx) (tx_class tx)
            (lk_ord lk) (lk_faults lk) (String.eqb mode "JSON-B") (lk_os lk) (box_margo ctl) (tx_source tx src) (tx_exn tx) (tx_stray tx) (tx_missing tx)
            (match f src with Some content => regular_file content | None => None end) (started c) []))
      | _, _ => []
      end
  | _, _ => []
  end.

(** run_conversion.py:306-350: one pass of the loop, and the loop. *)
Definition convert_one_log (mode : string) (ctl : option boxed_controls) (lk : luck) (f : fs) (l : logger) (src : path)
  : fs * logger * res outcome :=
  convert_one mode ctl (with_messages lk (own_messages mode ctl lk f l src)) f l src.
Fixpoint convert_loop_log (mode : string) (ctl : option boxed_controls) (f : fs) (l : logger) (jobs : list (path * luck))
  : fs * logger * (list outcome * option exn) :=
  match jobs with
  | [] => (f, l, ([], None))
  | (src, lk) :: r =>
      match convert_one_log mode ctl lk f l src with
      | (f, l, Err e) => (f, l, ([], Some e))
      | (f, l, Ok o) =>
          let '(f, l, (os, x)) := convert_loop_log mode ctl f l r in (f, l, (o :: os, x))
      end
  end.

(** run_conversion.py:282-350 [main] *)
Definition main_log (kord : list text -> list text) (defaults : ini_file) (user : option ini_file) (mode : string)
    (f : fs) (jobs : list (path * luck)) : fs * logger * (list outcome * option exn) :=
  match main_controls kord defaults user with
  | Err e => (f, logger_init, ([], Some e))
  | Ok ctl => convert_loop_log mode ctl f logger_init jobs
  end.
Definition program_log (kord : list text -> list text) (cwd : path) (d : disk) (ini : string -> ini_file) (typed : text)
    (lks : nat -> luck) (f : fs) (argv : list string) : ended :=
  match snd (init_from_file kord controls_init (ini DEFAULT_CONFIG)) with
  | Err e => Ran f [] (Some e)                                   (* line 286 *)
  | Ok _ =>
      match parse_args argv with
      | Shown => Exited 0
      | Accepted {| n_format := mode; n_ini := u; n_ext := ext; n_source := Some srcs |} =>
          let files := make_list_of_source_files cwd d srcs ext typed in
          let '(f, _, (outs, x)) := main_log kord (ini DEFAULT_CONFIG) (option_map ini u) mode f (combine files (map lks (seq 0 (length files)))) in
          Ran f outs x
      | _ => Exited 2
      end
  end.
End Texts.
