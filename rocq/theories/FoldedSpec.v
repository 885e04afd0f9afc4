(** * FoldedSpec: INI files with values of several lines (C58). *)
From Verif Require Import PyBase PyVal ControlsModel IniSpec.
Local Open Scope list_scope.
Local Open Scope Z_scope.

(** Sections with options; the value of an option is a list of lines. *)
Definition folded_settings := list (text * list (text * list text)).

(** The lines behind an option line that belong to its value: each line that begins with white
    space adds a line - also one that looks like an option or a section -, each empty line adds an
    empty line, and comments add nothing. *)
Inductive value_lines : list text -> list text -> Prop :=
| value_end : value_lines [] []
| value_blank vs l ls : all_white l -> value_lines vs ls -> value_lines ([] :: vs) (l :: ls)
| value_comment vs w c r ls : all_white w -> c = 35 \/ c = 59 -> value_lines vs ls -> value_lines vs ((w ++ c :: r) :: ls)
| value_more vs w v w' ls : w <> [] -> all_white w -> all_white w' -> trimmed v ->
    (exists c r, v = c :: r /\ c <> 35 /\ c <> 59) -> value_lines vs ls -> value_lines (v :: vs) ((w ++ v ++ w') :: ls).
Inductive folded_options : list (text * list text) -> list text -> Prop :=
| folded_none : folded_options [] []
| folded_one k v vs o l ls rest : option_line k v l -> value_lines vs ls -> folded_options o rest ->
    folded_options ((k, v :: vs) :: o) (l :: ls ++ rest).
Inductive folded_sections : folded_settings -> list text -> Prop :=
| folded_end : folded_sections [] []
| folded_section name o s l ls os rest : header_line name l -> Forall idle ls -> folded_options o os -> folded_sections s rest ->
    folded_sections ((name, o) :: s) (l :: ls ++ os ++ rest).
(** The text of a file; every line ends with "\n". *)
Definition folded_file (s : folded_settings) (t : text) : Prop :=
  exists lead ls, Forall idle lead /\ folded_sections s ls /\ Forall no_newline (lead ++ ls) /\ t = concat (map (fun l => l ++ [10]) (lead ++ ls)).

Definition folded_sayable (s : folded_settings) : Prop :=
  NoDup (map fst s) /\
  Forall (fun sec => name_ok (fst sec) /\ NoDup (map (fun kv => lower (fst kv)) (snd sec)) /\
    Forall (fun kv => key_fine (fst kv) /\ (forall v vs, snd kv = v :: vs -> value_fine v)) (snd sec)) s.

(** The value is these lines with "\n" between them, without the white space at the end. *)
Definition folded_value (lines : list text) (value : text) : Prop :=
  exists w, text_of_lines lines = value ++ w /\ all_white w /\ forall r c, value = r ++ [c] -> ~ white_char c.
(** What the parser must have found. *)
Definition folded_said (s : folded_settings) (i : ini) : Prop :=
  i_defaults i = [] /\
  Forall2 (fun sec r => fst r = fst sec /\
    Forall2 (fun kv o => fst o = lower (fst kv) /\ folded_value (snd kv) (snd o)) (snd sec) (snd r)) s (i_sections i).
