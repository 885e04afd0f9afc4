(** * NamesSpec: where products are found (C66). *)
From Coq Require Import Ascii String DecimalString.
From Verif Require Import PyBase.
Local Open Scope string_scope.
Local Open Scope list_scope.
Local Open Scope Z_scope.

(** A decimal number. *)
Definition dec (n : Z) : string := NilZero.string_of_int (Z.to_int n).

(** A file name without its extension: what is before the last dot, unless there are only dots
    before it; dots at the beginning belong to the name. *)
Definition letters (s : string) : list ascii := list_ascii_of_string s.
Inductive stem_of : string -> string -> Prop :=
| stem_extension s e : ~ Forall (eq "."%char) (letters s) -> ~ In "."%char (letters e) -> stem_of (s ++ "." ++ e)%string s
| stem_whole dots r : Forall (eq "."%char) (letters dots) -> ~ In "."%char (letters r) -> stem_of (dots ++ r)%string (dots ++ r)%string.

(** Directory (in the work folder) and name of the JSON file for a message number. *)
Inductive json_place : Z -> string -> string -> Prop :=
| place_msm k tag t : In (k, tag) [(0, "GPS"); (1, "GLN"); (2, "GAL"); (3, "SBS"); (4, "QZS"); (5, "BDS"); (6, "NAVIC")] -> 1 <= t <= 7 ->
    json_place (1070 + 10 * k + t) ("MSM" ++ dec t) (tag ++ "-MSM" ++ dec t ++ "-" ++ dec (1070 + 10 * k + t) ++ ".json")
| place_eph n tag : In (n, tag) [(1019, "GPS"); (1020, "GLN"); (1041, "NAVIC"); (1042, "BDS"); (1044, "QZS"); (1045, "GAL"); (1046, "GAL")] ->
    json_place n "EPH" (tag ++ "-EPH-" ++ dec n ++ ".json")
| place_base n what : In (n, what) [(1005, "RefPoint"); (1006, "RefPointHeight"); (1007, "AntDesc"); (1008, "AntDescSer"); (1013, "SysPar");
                                    (1029, "TextStr"); (1033, "AntAndRcvDesc"); (1230, "GloBias")] ->
    json_place n "BASE" (what ++ "-" ++ dec n ++ ".json").
