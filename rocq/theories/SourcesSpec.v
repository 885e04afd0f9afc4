(** * SourcesSpec: which files a run is about (C53, C54). *)
From Coq Require Import Ascii.
From Verif Require Import PyBase PyDict PyVal MainModel ControlsModel ControlsSpec SourcesModel.
Local Open Scope string_scope.
Local Open Scope list_scope.
Local Open Scope Z_scope.

(** ** Names of files *)
(** The text is these words with a separator between. *)
Inductive joined {A} (sep : A) : list (list A) -> list A -> Prop :=
| last_word w : ~ In sep w -> joined sep [w] w
| more_words w ws t : ~ In sep w -> joined sep ws t -> joined sep (w :: ws) (w ++ sep :: t).
(** Going from a directory along the components of a name. *)
Inductive leads : path -> list string -> path -> Prop :=
| arrived p : leads p [] p
| stay p c r q : c = "" \/ c = "." -> leads p r q -> leads p (c :: r) q
| up p n r q : leads p r q -> leads (p ++ [n]) (".." :: r) q
| top r q : leads [] r q -> leads [] (".." :: r) q
| down p c r q : c <> "" -> c <> "." -> c <> ".." -> leads (p ++ [c]) r q -> leads p (c :: r) q.
(** The file that a name stands for in a working directory. *)
Definition stands_for (cwd : path) (s : string) (p : path) : Prop :=
  exists comps, joined slash (map chars comps) (chars s) /\
    leads (match s with String c _ => if Ascii.eqb c slash then [] else cwd | EmptyString => cwd end) comps p.
Definition proper (p : path) : Prop := Forall (fun c => c <> "" /\ c <> "." /\ c <> "..") p.

(** The named files that exist, in order. *)
Inductive existing (cwd : path) (d : disk) : list string -> list path -> Prop :=
| no_more : existing cwd d [] []
| a_file s p r q : stands_for cwd s p -> d p = KFile -> existing cwd d r q -> existing cwd d (s :: r) (p :: q)
| no_file s p r q : stands_for cwd s p -> d p <> KFile -> existing cwd d r q -> existing cwd d (s :: r) q.

(** ** Answers of the user *)
(** The entries with these numbers, counted from 1; other numbers are passed over. *)
Inductive picks (files : list path) : list Z -> list path -> Prop :=
| pick_none : picks files [] []
| pick_one i p is ps : 1 <= i -> nth_error files (Z.to_nat (i - 1)) = Some p -> picks files is ps -> picks files (i :: is) (p :: ps)
| pick_over i is ps : i < 1 \/ zlen files < i -> picks files is ps -> picks files (i :: is) ps.
Definition answer_says (typed : text) (nums : list Z) : Prop :=
  exists words, joined 32 words typed /\ Forall2 is_int_text words nums.

(** ** Directories *)
(** No character that [glob] takes for a pattern. *)
Definition plain (s : string) : Prop := forall c, In c (chars s) -> c <> chr 42 /\ c <> chr 63 /\ c <> chr 91.
(** The visible entries of a directory that have the extension. *)
Definition has_extension (ext name : string) : Prop := exists stem, name = (stem ++ "." ++ ext)%string.
Definition visible (name : string) : Prop := forall r, name <> String dot r.
