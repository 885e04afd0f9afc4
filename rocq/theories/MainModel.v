(** * MainModel: model of run_conversion.py. *)
From Coq Require Import DecimalString.
From Verif Require Import PyBase PyDict PyFloat PyVal BitsModel FramerModel MsmModel DecoderModel MargoModel JsonModel PrinterModel.
Local Open Scope string_scope.
Local Open Scope list_scope.
Local Open Scope Z_scope.

(** ** run_conversion.py:100-156 [decode_rtcm_file] *)

(** The operations of the function at which an exception may arrive. (run_conversion.py:100-156) *)
Inductive op := OOpen | OLog | OSize | ORead | OParse | ODecode | OPrint | OStats | OProgress | ORelease | OCloseFile.

(** What may go wrong at an operation, apart from what the operation itself raises: an exception
    (KeyboardInterrupt, an input/output error, ...) arrives before the operation starts, or while
    it runs, leaving converter and files in any state. (run_conversion.py:100-156) *)
Inductive fault :=
| Before (e : exn)
| During (e : exn) (damage : converter world * world -> converter world * world).

(** State of a run: converter and files; the operations so far, latest first, and whether each
    of them was started. (run_conversion.py:100-156) *)
Record run := { r_conv : converter world; r_world : world; r_trace : list (op * bool) }.

Section Decode.
Variable ord : list (subprinter world) -> list (subprinter world).
(** The fault, if any, at the n-th operation. *)
Variable faults : nat -> option fault.

(** A computation: new state and result. (run_conversion.py:100-156) *)
Definition act (A : Type) := run -> run * res A.
(** run_conversion.py:100-156 *)
Definition ret {A} (a : A) : act A := fun s => (s, Ok a).
(** run_conversion.py:100-156 *)
Definition raise {A} (e : exn) : act A := fun s => (s, Err e).
(** run_conversion.py:100-156 *)
Definition andthen {A B} (x : act A) (f : A -> act B) : act B :=
  fun s => match x s with (s, Ok a) => f a s | (s, Err e) => (s, Err e) end.

(** One operation. (run_conversion.py:100-156) *)
Definition perform {A} (o : op) (f : converter world * world -> (converter world * world) * res A) : act A :=
  fun s =>
    match faults (length (r_trace s)) with
    | Some (Before e) => ({| r_conv := r_conv s; r_world := r_world s; r_trace := (o, false) :: r_trace s |}, Err e)
    | Some (During e damage) =>
        let '(c, w) := damage (r_conv s, r_world s) in
        ({| r_conv := c; r_world := w; r_trace := (o, true) :: r_trace s |}, Err e)
    | None =>
        let '((c, w), r) := f (r_conv s, r_world s) in
        ({| r_conv := c; r_world := w; r_trace := (o, true) :: r_trace s |}, r)
    end.
(** run_conversion.py:100-156 *)
Definition silent (o : op) : act unit := perform o (fun cw => (cw, Ok tt)).

(** lines 118-121: the loop over the messages of a chunk. (run_conversion.py:118-121) *)
Fixpoint messages (msgs : list (list Z)) : act unit :=
  match msgs with
  | [] => ret tt
  | m :: r =>
      andthen (perform ODecode (fun '(c, w) => let '(c, x) := cv_decode c m in ((c, w), x))) (fun x =>
      andthen (match x with
               | None => ret tt
               | Some o => perform OPrint (fun '(c, w) => cv_print ord c w o)
               end) (fun _ => messages r))
  end.

(** lines 112-134: reading and converting.  [reads] are the results of the successive calls of
    [f.read]; after the last one [b""] is read (end of file).  [size] is [os.path.getsize]. *)
(** run_conversion.py:112-134 *)
Fixpoint chunks (size processed : Z) (reads : list (list Z)) : act unit :=
  andthen (silent ORead) (fun _ =>
  match reads with
  | [] | [] :: _ => ret tt
  | c :: r =>
      let processed := processed + zlen c in
      andthen (perform OParse (fun '(cv, w) => let '(cv, ms) := cv_parse cv c in ((cv, w), ms))) (fun ms =>
      andthen (messages ms) (fun _ =>
      andthen (silent OStats) (fun _ =>
      andthen (if size =? 0 then raise EZeroDiv else ret tt) (fun _ =>
      andthen (silent OProgress) (fun _ =>
      chunks size processed r)))))
  end).

(** The source file: [None] when it cannot be opened. (run_conversion.py:100-156) *)
Definition source := option (Z * list (list Z)).

(** lines 106-134: the [try] block.  Second component: [f] has been assigned.
    (run_conversion.py:105-134) *)
Definition try_block (src : source) : run -> run * res unit * bool :=
  fun s =>
    match perform OOpen (fun cw => (cw, match src with Some _ => Ok tt | None => Err EOS end)) s with
    | (s, Err e) => (s, Err e, false)
    | (s, Ok _) =>
        let '(s, r) :=
          andthen (silent OLog) (fun _ => andthen (silent OSize) (fun _ =>
            match src with Some (size, reads) => chunks size 0 reads | None => ret tt end)) s in
        (s, r, true)
    end.

(** lines 136-146: the handlers; [return False].  (Texts of the log are not modelled.);
    run_conversion.py:136-146 *)
Definition handler (e : exn) : act bool :=
  match e with
  | EKeyboard => andthen (silent OLog) (fun _ => ret false)
  | _ => andthen (silent OLog) (fun _ => andthen (silent OLog) (fun _ => ret false))
  end.

(** lines 147-154: the [finally] block; run_conversion.py:147-154 *)
Definition finally_block (opened : bool) : act unit :=
  andthen (perform ORelease (fun '(c, w) => let '(w, r) := cv_release ord c w in ((c, w), r))) (fun _ =>
  andthen (silent OLog) (fun _ =>
  if opened then silent OCloseFile else ret tt)).

(** An exception in [finally] replaces whatever was under way. (run_conversion.py:100-156) *)
Definition decode_rtcm_file (src : source) : act bool :=
  fun s =>
    let '(s, r, opened) := try_block src s in
    let '(s, r) := match r with Ok _ => (s, Ok true) | Err e => handler e s end in
    match finally_block opened s with
    | (s, Err e) => (s, Err e)
    | (s, Ok _) => (s, r)
    end.
End Decode.

(** [f.read(n)] on a regular file, until the end of the file: pieces of [n] bytes, the last one
    possibly shorter.  [fuel]: at least the length of the content. (run_conversion.py:112, 134) *)
Fixpoint reads_of (fuel n : nat) (content : list Z) : list (list Z) :=
  match fuel, content with
  | S k, _ :: _ => firstn n content :: reads_of k n (skipn n content)
  | _, _ => []
  end.
(** run_conversion.py:24 [FILE_CHUNCK_LEN] *)
Definition FILE_CHUNCK_LEN : nat := Z.to_nat 4096.
Definition regular_file (content : list Z) : source :=
  Some (zlen content, reads_of (length content) FILE_CHUNCK_LEN content).

(** ** run_conversion.py:337-348: the closing message of a file *)
Inductive status := WithoutErrors | WithErrors | Terminated.
Definition truth (n : Z) : bool := negb (n =? 0).
Definition closing (decoded : bool) (st : statistics) : status :=
  if decoded then
    if truth (printing_errors st) || truth (decoding_errors st) || truth (printing_errors st)
    then WithErrors else WithoutErrors
  else Terminated.

(** ** Paths *)
(** A path is the list of its components. (run_conversion.py:38-39, 66-69, 320) *)
Definition path := list string.

(** [os.path.splitext], run_conversion.py:38, 67 *)
Definition dot : Ascii.ascii := Ascii.ascii_of_nat 46.

(** The part of a name before its last dot, if there is one.
    ([os.path.splitext], run_conversion.py:38, 67) *)
Fixpoint before_last_dot (s : string) : option string :=
  match s with
  | EmptyString => None
  | String c r =>
      match before_last_dot r with
      | Some x => Some (String c x)
      | None => if Ascii.eqb c dot then Some EmptyString else None
      end
  end.
(** [os.path.splitext], run_conversion.py:38, 67 *)
Fixpoint only_dots (s : string) : bool :=
  match s with EmptyString => true | String c r => Ascii.eqb c dot && only_dots r end.
(** [os.path.splitext(name)[0]]: leading dots do not start an extension.
    ([os.path.splitext], run_conversion.py:38, 67) *)
Definition root_of (name : string) : string :=
  match before_last_dot name with
  | Some r => if only_dots r then name else r
  | None => name
  end.

(** run_conversion.py:38-39 *)
Definition work_folder (src : path) (postfix : string) : path :=
  removelast src ++ [(root_of (last src "") ++ "-" ++ postfix)%string].
(** run_conversion.py:63-69 [make_log_file_name] *)
Definition log_file_name (src : path) : string := (root_of (last src "") ++ "-log.txt")%string.

(** printers/json_printer.py:134-153 [make_opath]: file, directory and log of a conversion. *)
Definition make_opath (base : path) (num : Z) (mode : string) : path * path * path :=
  let fname := root_of (last base "") in
  let odir := removelast base ++ [(fname ++ "-" ++ mode)%string] in
  let olog := odir ++ [(fname ++ "-log.txt")%string] in
  match zget JSON_SPEC num with
  | Some s => (odir ++ [js_dir s; js_file s], odir, olog)
  | None => (odir ++ ["UNDEF"; ("msg" ++ NilZero.string_of_int (Z.to_int num) ++ ".json")%string], odir, olog)
  end.

(** ** The files of the computer *)
(** run_conversion.py:41-57, 106 *)
Definition fs := path -> option (list Z).
(** run_conversion.py:41-57 *)
Definition path_eqb (a b : path) : bool := if list_eq_dec string_dec a b then true else false.
(** [p] is inside the directory [d]. (run_conversion.py:41-57) *)
Definition inside (d p : path) : bool :=
  path_eqb (firstn (length d) p) d && (Nat.ltb (length d) (length p)).
(** [shutil.rmtree(d)]; run_conversion.py:41-57 *)
Definition rmtree (d : path) (f : fs) : fs := fun p => if inside d p then None else f p.
(** Files written below the directory [d]; their relative paths are "directory/name".
    (files written below the folder of run_conversion.py:315) *)
Definition put (d : path) (files : list (string * list Z)) (f : fs) : fs :=
  fun p =>
    if inside d p then
      match skipn (length d) p with
      | [a; b] => match sget files (a ++ "/" ++ b)%string with Some c => Some c | None => f p end
      | _ => f p
      end
    else f p.

(** run_conversion.py:100-156 *)
Definition no_faults : nat -> option fault := fun _ => None.
(** run_conversion.py:100-156 *)
Definition started (c : converter world) : run := {| r_conv := c; r_world := world_init; r_trace := [] |}.
(** files written by the printers made in run_conversion.py:330-331 *)
Definition output_files (w : world) : list (string * list Z) := mg_files (w_margo w) ++ jp_files (w_json w).

Section Main.
Variable ord : list (subprinter world) -> list (subprinter world).
Variable mode : string.
Variable ctl : boxed_controls.
(** Which output files the operating system allows to create during the conversion of a file. *)
Variable env : path -> os.

(** run_conversion.py:308-350, the body of the loop, without interruptions.  The log files are
    not modelled.  Deleting the old work folder and creating the new one succeed, unless there is
    a regular file in its place.  The mode is one of the four that the argument parser allows. *)
Definition convert_file (f : fs) (src : path) : fs * option status :=
  let fld := work_folder src mode in
  match f fld with
  | Some _ => (f, None)
  | None =>
      let f := rmtree fld f in
      match factory mode true (env src) ctl with
      | Ok (Some c) =>
          let '(s, r) := decode_rtcm_file ord no_faults
                           (match f src with Some content => regular_file content | None => None end) (started c) in
          (put fld (output_files (r_world s)) f,
           match r with Ok b => Some (closing b (get_statistics (r_conv s))) | Err _ => None end)
      | _ => (f, None)
      end
  end.
Definition convert_all (f : fs) (files : list path) : fs :=
  fold_left (fun f src => fst (convert_file f src)) files f.
End Main.
