(** * ClassifySpec: the numbers of RTCM messages (C79). *)
From Verif Require Import PyBase PyDict MsmModel MsmSpec.
Local Open Scope string_scope.
Local Open Scope list_scope.
Local Open Scope Z_scope.

(** The message [n] is of the system with the letter [g] and of the group [s]. *)
Inductive classified : Z -> string -> string -> Prop :=
| class_msm g t : classified (msm_number g t) (gnss_letter g) (type_name t)
| class_eph n g : In (n, g) [(1019, GPS); (1020, GLO); (1041, NAVIC); (1042, BDS); (1044, QZSS); (1045, GAL); (1046, GAL)] ->
    classified n (gnss_letter g) "EPH"
| class_legacy k s first g : In (k, s) [(1, "LEG1"); (2, "LEG2"); (3, "LEG3"); (4, "LEG4")] -> In (first, g) [(1000, GPS); (1008, GLO)] ->
    classified (first + k) (gnss_letter g) s.
