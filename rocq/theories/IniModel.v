(** * IniModel: how an INI file is read (the standard library's [configparser], as controls.py uses it). *)
From Verif Require Import PyBase PyDict PyVal ControlsModel.
Local Open Scope string_scope.
Local Open Scope list_scope.
Local Open Scope Z_scope.

(** Python 3.11 configparser.py, [ConfigParser()] with its default arguments, called in
    controls.py:39 and 46.  Simplifications: white space and letters are the ASCII ones; the text
    is what text mode delivers (line ends are "\n"); the parser is empty before the file is read
    ([ControlsModel.merge] adds the result to what is there). *)

(** [fp]: the lines of a file, without their "\n". (configparser, called in controls.py:46) *)
Fixpoint split_lines (t : text) : list text :=
  match t with
  | [] => []
  | c :: r =>
      if c =? 10 then [] :: split_lines r
      else match split_lines r with w :: ws => (c :: w) :: ws | [] => [[c]] end
  end.

(** Values are lists of lines while a file is read. (configparser, called in controls.py:46) *)
Definition raw_options := list (text * list text).
(** configparser, called in controls.py:46 *)
Record reader := {
  r_sections : list (text * raw_options);   (* [_sections] *)
  r_defaults : raw_options;                 (* [_defaults] *)
  r_added : list (text * text);             (* [elements_added]: pairs; *)
  r_heads : list text;                      (* ... and names of sections *)
  r_section : option text;                  (* [sectname]; None: [cursect is None] *)
  r_option : text;                          (* [optname]; empty also for None *)
  r_indent : Z;                             (* [indent_level] *)
  r_error : bool }.                         (* [e is not None] *)
(** configparser, called in controls.py:46 *)
Definition reader_init : reader :=
  {| r_sections := []; r_defaults := []; r_added := []; r_heads := []; r_section := None; r_option := []; r_indent := 0; r_error := false |}.

(** configparser, called in controls.py:46 *)
Definition DEFAULTSECT : text := ustr "DEFAULT".
(** configparser, called in controls.py:46 *)
Definition is_comment (value : text) : bool := match value with c :: _ => (c =? 35) || (c =? 59) | [] => false end.
(** configparser, called in controls.py:46 *)
Fixpoint indent_of (line : text) : Z :=
  match line with [] => 0 | c :: r => if is_white c then 1 + indent_of r else 0 end.

(** [cursect] and changes of it; configparser, called in controls.py:46 *)
Definition cursect (st : reader) (name : text) : raw_options :=
  if text_eqb name DEFAULTSECT then r_defaults st
  else match dget text_eqb (r_sections st) name with Some o => o | None => [] end.
(** configparser, called in controls.py:46 *)
Definition set_cursect (st : reader) (name : text) (o : raw_options) : reader :=
  if text_eqb name DEFAULTSECT
  then {| r_sections := r_sections st; r_defaults := o; r_added := r_added st; r_heads := r_heads st; r_section := r_section st;
          r_option := r_option st; r_indent := r_indent st; r_error := r_error st |}
  else {| r_sections := dset text_eqb (r_sections st) name o; r_defaults := r_defaults st; r_added := r_added st; r_heads := r_heads st;
          r_section := r_section st; r_option := r_option st; r_indent := r_indent st; r_error := r_error st |}.
(** [cursect[optname].append(value)]; configparser, called in controls.py:46 *)
Definition append_line (st : reader) (name opt : text) (value : text) : reader :=
  set_cursect st name (dset text_eqb (cursect st name) opt
    (match dget text_eqb (cursect st name) opt with Some l => l | None => [] end ++ [value])).
(** configparser, called in controls.py:46 *)
Definition with_indent (st : reader) (n : Z) : reader :=
  {| r_sections := r_sections st; r_defaults := r_defaults st; r_added := r_added st; r_heads := r_heads st; r_section := r_section st;
     r_option := r_option st; r_indent := n; r_error := r_error st |}.
(** configparser, called in controls.py:46 *)
Definition with_error (st : reader) : reader :=
  {| r_sections := r_sections st; r_defaults := r_defaults st; r_added := r_added st; r_heads := r_heads st; r_section := r_section st;
     r_option := r_option st; r_indent := r_indent st; r_error := true |}.

(** [SECTCRE.match]: "[", a name of one character or more up to the last "]", anything.
    (configparser, called in controls.py:46) *)
Fixpoint last_bracket (t : text) : option text :=
  match t with
  | [] => None
  | c :: r => match last_bracket r with
              | Some h => Some (c :: h)
              | None => if c =? 93 then Some [] else None
              end
  end.
(** configparser, called in controls.py:46 *)
Definition header_of (value : text) : option text :=
  match value with
  | c :: r => if c =? 91 then match last_bracket r with Some (a :: h) => Some (a :: h) | _ => None end else None
  | [] => None
  end.
(** [OPTCRE.match]: the text before the first "=" or ":", and after it.
    (configparser, called in controls.py:46) *)
Fixpoint split_delim (t : text) : option (text * text) :=
  match t with
  | [] => None
  | c :: r => if (c =? 61) || (c =? 58) then Some ([], r)
              else match split_delim r with Some (k, v) => Some (c :: k, v) | None => None end
  end.
(** configparser, called in controls.py:46 *)
Definition rstrip (t : text) : text := rev (drop_while is_white (rev t)).

(** A section header. (configparser, called in controls.py:46) *)
Definition open_section (st : reader) (name : text) : option reader :=
  let st' secs heads := {| r_sections := secs; r_defaults := r_defaults st; r_added := r_added st; r_heads := heads;
                           r_section := Some name; r_option := []; r_indent := r_indent st; r_error := r_error st |} in
  match dget text_eqb (r_sections st) name with
  | Some _ => if existsb (text_eqb name) (r_heads st) then None else Some (st' (r_sections st) (name :: r_heads st))
  | None => if text_eqb name DEFAULTSECT then Some (st' (r_sections st) (r_heads st))
            else Some (st' (dset text_eqb (r_sections st) name []) (name :: r_heads st))
  end.
(** An option line. (configparser, called in controls.py:46) *)
Definition pair_eqb (a b : text * text) : bool := text_eqb (fst a) (fst b) && text_eqb (snd a) (snd b).
(** configparser, called in controls.py:46 *)
Definition set_option (st : reader) (sect key value : text) : option reader :=
  let st := match key with [] => with_error st | _ => st end in
  let opt := lower (rstrip key) in
  if existsb (pair_eqb (sect, opt)) (r_added st) then None
  else
    let st := {| r_sections := r_sections st; r_defaults := r_defaults st; r_added := (sect, opt) :: r_added st; r_heads := r_heads st;
                 r_section := r_section st; r_option := opt; r_indent := r_indent st; r_error := r_error st |} in
    Some (set_cursect st sect (dset text_eqb (cursect st sect) opt [strip is_white value])).

(** The body of the loop over the lines; None: an exception is raised.
    (configparser, called in controls.py:46) *)
Definition read_line (st : reader) (line : text) : option reader :=
  let stripped := strip is_white line in
  let comment := is_comment stripped in
  let value := if comment then [] else stripped in
  match value with
  | [] =>
      match r_section st, r_option st, comment with
      | Some s, (_ :: _) as o, false => Some (append_line st s o [])
      | _, _, _ => Some st
      end
  | _ =>
      match r_section st, r_option st, r_indent st <? indent_of line with
      | Some s, (_ :: _) as o, true => Some (append_line st s o value)
      | _, _, _ =>
          let st := with_indent st (indent_of line) in
          match header_of value with
          | Some name => open_section st name
          | None =>
              match r_section st with
              | None => None
              | Some s =>
                  match split_delim value with
                  | Some (k, v) => set_option st s (rstrip k) v
                  | None => Some (with_error st)
                  end
              end
          end
      end
  end.
(** Result and whether an exception was raised inside the loop.
    (configparser, called in controls.py:46) *)
Fixpoint read_lines (st : reader) (lines : list text) : reader * bool :=
  match lines with
  | [] => (st, false)
  | l :: r => match read_line st l with Some st => read_lines st r | None => (st, true) end
  end.

(** [_join_multiline_values]; configparser, called in controls.py:46 *)
Definition join_lines (l : list text) : text :=
  rstrip (match l with [] => [] | a :: r => a ++ flat_map (fun x => 10 :: x) r end).
(** configparser, called in controls.py:46 *)
Definition join_options (o : raw_options) : list (text * text) := map (fun kv => (fst kv, join_lines (snd kv))) o.
(** configparser, called in controls.py:46 *)
Definition joined_ini (st : reader) : ini :=
  {| i_sections := map (fun s => (fst s, join_options (snd s))) (r_sections st); i_defaults := join_options (r_defaults st) |}.

(** [read(file)] for a file with this text; configparser, called in controls.py:46 *)
Definition parse_ini (t : text) : ini_file :=
  let '(st, raised) := read_lines reader_init (split_lines t) in
  if raised || r_error st then Broken (joined_ini st) else Parsed (joined_ini st).
