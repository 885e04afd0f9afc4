(** * ProgramModel: the whole command, from the command line to the file system. *)
From Coq Require Import Ascii.
From Verif Require Import PyBase PyDict PyVal MainModel ControlsModel SessionModel SourcesModel ArgsModel.
Local Open Scope string_scope.
Local Open Scope list_scope.

(** run_conversion.py:25 *)
Definition DEFAULT_CONFIG : string := "defaults.ini".

(** How the command ends: the interpreter exits with a code (argparse), or [main] runs to its end
    or to an exception. (run_conversion.py:282-355) *)
Inductive ended := Exited (code : Z) | Ran (f : fs) (outs : list outcome) (x : option exn).

(** run_conversion.py:282-350 [main], with the command line [argv] (line 293) or an explicit one
    (line 296, [main_text]).
    - [cwd], [d]: working directory and shape of the disk; [f]: contents of its files;
    - [ini]: what [configparser] makes of the file with this name (IniModel);
    - [typed]: the answer of the user, if a directory is given;
    - [lks]: what the operating system does to the conversion of the n-th source.
    Simplification: standard output is not modelled. *)
Definition program (kord : list text -> list text) (cwd : path) (d : disk) (ini : string -> ini_file) (typed : text)
    (lks : nat -> luck) (f : fs) (argv : list string) : ended :=
  match snd (init_from_file kord controls_init (ini DEFAULT_CONFIG)) with
  | Err e => Ran f [] (Some e)                                   (* line 286 *)
  | Ok _ =>
      match parse_args argv with
      | Shown => Exited 0
      | Accepted {| n_format := mode; n_ini := u; n_ext := ext; n_source := Some srcs |} =>
          let files := make_list_of_source_files cwd d srcs ext typed in
          let '(f, _, (outs, x)) := main kord (ini DEFAULT_CONFIG) (option_map ini u) mode f (combine files (map lks (seq 0 (length files)))) in
          Ran f outs x
      | _ => Exited 2
      end
  end.

(** [s.split(" ")]; run_conversion.py:296 *)
Fixpoint split_blank (s : string) : list string :=
  match s with
  | EmptyString => [""]
  | String c r => if Ascii.eqb c blank then "" :: split_blank r
                  else match split_blank r with w :: ws => String c w :: ws | [] => [String c ""] end
  end.
(** run_conversion.py:294-296 *)
Definition main_text kord cwd d ini typed lks f (local_args : string) : ended :=
  program kord cwd d ini typed lks f (split_blank local_args).
