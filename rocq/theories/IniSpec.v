(** * IniSpec: texts of INI files and what they say (C58). *)
From Coq Require Import String.
From Verif Require Import PyBase PyVal ControlsModel.
Local Open Scope string_scope.
Local Open Scope list_scope.
Local Open Scope Z_scope.

Definition white_char (c : Z) : Prop := 9 <= c <= 13 \/ 28 <= c <= 32.
Definition all_white (t : text) : Prop := Forall white_char t.
Definition no_newline (t : text) : Prop := ~ In 10 t.
(** Neither begins nor ends with white space. *)
Definition trimmed (t : text) : Prop :=
  (forall c r, t = c :: r -> ~ white_char c) /\ (forall r c, t = r ++ [c] -> ~ white_char c).

(** What the user wants to say: sections with options. *)
Definition settings := list (text * list (text * text)).
(** Names that can be written: a section name is any non-empty text but DEFAULT; an option name has
    no "=" or ":", does not begin with "[", "#" or ";", and is trimmed; a value is trimmed. *)
Definition name_ok (s : text) : Prop := s <> [] /\ no_newline s /\ s <> ustr "DEFAULT".
Definition key_fine (k : text) : Prop :=
  k <> [] /\ no_newline k /\ trimmed k /\ ~ In 61 k /\ ~ In 58 k /\
  (forall c r, k = c :: r -> c <> 91 /\ c <> 35 /\ c <> 59).
Definition value_fine (v : text) : Prop := no_newline v /\ trimmed v.
(** Nothing is said twice; names of options are not case-sensitive. *)
Definition sayable (s : settings) : Prop :=
  NoDup (map fst s) /\
  Forall (fun sec => name_ok (fst sec) /\ NoDup (map (fun kv => lower (fst kv)) (snd sec)) /\
                     Forall (fun kv => key_fine (fst kv) /\ value_fine (snd kv)) (snd sec)) s.

(** ** Lines *)
(** An empty line or a comment. *)
Definition idle (l : text) : Prop :=
  all_white l \/ exists w c r, l = w ++ c :: r /\ all_white w /\ (c = 35 \/ c = 59).
(** A section header: "[name]", after it anything without "]". *)
Definition header_line (name l : text) : Prop := exists rest, l = 91 :: name ++ 93 :: rest /\ ~ In 93 rest.
(** An option: its name, "=" or ":", its value, with any white space around them, not indented. *)
Definition option_line (k v l : text) : Prop :=
  exists w1 d w2 w3, l = k ++ w1 ++ d :: w2 ++ v ++ w3 /\ all_white w1 /\ all_white w2 /\ all_white w3 /\ (d = 61 \/ d = 58).

(** Idle lines may stand anywhere. *)
Inductive option_lines : list (text * text) -> list text -> Prop :=
| no_options : option_lines [] []
| idle_option o l ls : idle l -> option_lines o ls -> option_lines o (l :: ls)
| one_option k v o l ls : option_line k v l -> option_lines o ls -> option_lines ((k, v) :: o) (l :: ls).
Inductive file_lines : settings -> list text -> Prop :=
| no_sections : file_lines [] []
| idle_line s l ls : idle l -> file_lines s ls -> file_lines s (l :: ls)
| one_section name o s l ls rest : header_line name l -> option_lines o ls -> file_lines s rest ->
    file_lines ((name, o) :: s) (l :: ls ++ rest).
(** The text of a file: lines with "\n" between them (so that "\n" at the end may be missing or not). *)
Fixpoint text_of_lines (ls : list text) : text :=
  match ls with [] => [] | [l] => l | l :: r => l ++ 10 :: text_of_lines r end.
Definition writes (s : settings) (t : text) : Prop :=
  exists ls, file_lines s ls /\ Forall no_newline ls /\ t = text_of_lines ls.

(** What the parser must have found. *)
Definition said (s : settings) : ini :=
  {| i_sections := map (fun sec => (fst sec, map (fun kv => (lower (fst kv), snd kv)) (snd sec))) s; i_defaults := [] |}.

(** Capital letters and their small letters; other characters are not changed. *)
Definition small (c : Z) : Z :=
  match find (fun p => fst p =? c) (combine (ustr "ABCDEFGHIJKLMNOPQRSTUVWXYZ") (ustr "abcdefghijklmnopqrstuvwxyz")) with Some p => snd p | None => c end.
