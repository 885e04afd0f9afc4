(** * PatternsSpec: names with wildcards, as the standard library reads them (C54). *)
From Coq Require Import Ascii.
From Verif Require Import PyBase PyDict MainModel SourcesModel SourcesSpec.
Local Open Scope string_scope.
Local Open Scope list_scope.
Local Open Scope Z_scope.

Definition star : ascii := "*". Definition question : ascii := "?". Definition opening : ascii := "[".
Definition closing : ascii := "]". Definition hyphen : ascii := "-". Definition exclamation : ascii := "!".
Definition code_of (c : ascii) : Z := Z.of_nat (nat_of_ascii c).

(** The text after an opening bracket is a set: an optional "!", at least one character of which
    only the first may be "]", and "]". *)
Definition bracket (p : list ascii) (negated : bool) (s q : list ascii) : Prop :=
  exists a r, s = a :: r /\ ~ In closing r /\ p = (if negated then [exclamation] else []) ++ s ++ closing :: q /\
    (negated = false -> a <> exclamation).
(** Characters of a set: ranges a-b, and single characters. *)
Inductive among : list ascii -> ascii -> Prop :=
| among_range a b r x : code_of a <= code_of x <= code_of b -> among (a :: hyphen :: b :: r) x
| among_behind a b r x : among r x -> among (a :: hyphen :: b :: r) x
| among_this x r : (forall b s, r <> hyphen :: b :: s) -> among (x :: r) x
| among_next a r x : (forall b s, r <> hyphen :: b :: s) -> among r x -> among (a :: r) x.

(** The name fits the pattern. *)
Inductive fits : list ascii -> list ascii -> Prop :=
| fits_end : fits [] []
| fits_star p a n : fits p n -> fits (star :: p) (a ++ n)
| fits_any p x n : fits p n -> fits (question :: p) (x :: n)
| fits_set p negated s q x n : bracket p negated s q -> (if negated then ~ among s x else among s x) -> fits q n -> fits (opening :: p) (x :: n)
| fits_char c p n : c <> star -> c <> question -> (c = opening -> forall negated s q, ~ bracket p negated s q) -> fits p n -> fits (c :: p) (c :: n).

(** Going from a directory along a pattern: components with wildcards stand for entries that fit
    (visible ones, unless the component begins with a dot; directories, unless it is the last
    component), others for themselves, if they exist. *)
Inductive finds (d : disk) : path -> list string -> path -> Prop :=
| found q : finds d q [] q
| by_pattern q c names n r p : ~ plain c -> d q = KDir names -> In n names -> fits (chars c) (chars n) ->
    (visible n \/ ~ visible c) -> (r <> [] -> exists inner, d (q ++ [n]) = KDir inner) ->
    finds d (q ++ [n]) r p -> finds d q (c :: r) p
| by_name q c r p : plain c -> d (q ++ [c]) <> KNone -> finds d (q ++ [c]) r p -> finds d q (c :: r) p.
