(** * CrashModel: the program killed at some moment of its work.  Nothing that Python does on the
    way out happens then: no handler, no [finally], no flushing of buffers. *)
From Verif Require Import PyBase PyDict PyVal DecoderModel MargoModel JsonModel PrinterModel MainModel ControlsModel SessionModel.
Local Open Scope string_scope.
Local Open Scope list_scope.
Local Open Scope Z_scope.

(** The [n]-th operation is never started. (run_conversion.py:100-156) *)
Definition stop (n : nat) (faults : nat -> option fault) : nat -> option fault :=
  fun i => if Nat.eqb i n then Some (Before EKeyboard) else faults i.

(** run_conversion.py:100-156 [decode_rtcm_file], up to the moment at which its [n]-th operation
    would start: the state of printers and files then.  (If there are fewer operations, the
    state at the end.  As in MainModel, what the printers have written counts as written;
    buffers come in below.) *)
Definition killed (ord : list (subprinter world) -> list (subprinter world)) (faults : nat -> option fault)
    (n : nat) (src : source) (s : run) : run :=
  let '(s, r, opened) := try_block ord (stop n faults) src s in
  if Nat.ltb n (length (r_trace s)) then s
  else
    let '(s, _) := match r with Ok _ => (s, Ok true) | Err e => handler (stop n faults) e s end in
    if Nat.ltb n (length (r_trace s)) then s
    else fst (finally_block ord (stop n faults) opened s).

(** What is on the disk of files that have been written: some of them, and of each some initial
    part (buffers of the file objects; [open] in printers/margo_printer.py:410-424 and
    printers/json_printer.py:165-180). *)
Definition on_disk (files written : list (string * list Z)) : Prop :=
  forall name t, sget files name = Some t -> exists k u, sget written name = Some u /\ t = firstn k u.

(** run_conversion.py:306-350, the loop over the sources, killed at some moment: the last
    argument is what the file system can look like then. *)
Inductive crash (mode : string) (ctl : option boxed_controls) : fs -> logger -> list (path * luck) -> fs -> Prop :=
(** between two sources, or after the last one; lines 308-311 *)
| crash_between f l jobs : crash mode ctl f l jobs f
(** lines 41-43: in the middle of [shutil.rmtree], or just after it *)
| crash_removing f l src lk jobs keep :
    f (work_folder src mode) = None ->
    crash mode ctl f l ((src, lk) :: jobs)
      (fun p => if inside (work_folder src mode) p && negb (keep p) then None else f p)
(** lines 79-91: while the log file is made; lines 324-335: and afterwards, when there are no
    controls or no converter *)
| crash_logging f l src lk jobs f1 k :
    create_work_folder mode lk f src = (f1, true) -> lk_log lk <> Some false ->
    crash mode ctl f l ((src, lk) :: jobs) (fs_set f1 (log_path mode src) (firstn k welcome))
(** line 337: while operation [n] of the conversion is going on, [m] messages having been logged *)
| crash_converting f l src lk jobs f1 f2 l2 box c n files m k :
    create_work_folder mode lk f src = (f1, true) ->
    init_logger lk f1 l (log_path mode src) = (f2, l2, Ok tt) ->
    ctl = Some box -> factory mode true (lk_os lk) box = Ok (Some c) ->
    on_disk files (output_files (r_world (killed (lk_ord lk) (lk_faults lk) (S n)
      (match f2 src with Some content => regular_file content | None => None end) (started c)))) ->
    crash mode ctl f l ((src, lk) :: jobs)
      (fun p => if path_eqb p (log_path mode src)
                then option_map (firstn k) (log_all l2 (firstn m (lk_messages lk)) f2 p)
                else put (work_folder src mode) files f2 p)
(** in the work on a later source *)
| crash_later f l src lk jobs f1 l1 o f' :
    convert_one mode ctl lk f l src = (f1, l1, Ok o) -> crash mode ctl f1 l1 jobs f' ->
    crash mode ctl f l ((src, lk) :: jobs) f'.

(** run_conversion.py:282-350 [main], killed; before the loop nothing is written. *)
Definition crashed_main (kord : list text -> list text) (defaults : ini_file) (user : option ini_file) (mode : string)
    (f : fs) (jobs : list (path * luck)) (f' : fs) : Prop :=
  match main_controls kord defaults user with
  | Err _ => f' = f
  | Ok ctl => crash mode ctl f logger_init jobs f'
  end.
