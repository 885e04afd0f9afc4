(** * ControlsSpec: what the controls must be (C41, C48). *)
From Coq Require Import Permutation.
From Verif Require Import PyBase PyDict PyVal MargoModel JsonModel ControlsModel.
Local Open Scope string_scope.
Local Open Scope list_scope.
Local Open Scope Z_scope.

(** ** Texts of numbers and truth values *)
Inductive digits_of : text -> Z -> Prop :=
| one_digit d : 0 <= d <= 9 -> digits_of [48 + d] d
| more_digits l z d : digits_of l z -> 0 <= d <= 9 -> digits_of (l ++ [48 + d]) (10 * z + d)
| underscore l z d : digits_of l z -> 0 <= d <= 9 -> digits_of (l ++ [95; 48 + d]) (10 * z + d).
Definition white (l : text) : Prop := Forall (fun c => 9 <= c <= 13 \/ 28 <= c <= 32) l.
Definition is_int_text (s : text) (z : Z) : Prop :=
  exists w1 sign l n w2, s = w1 ++ sign ++ l ++ w2 /\ white w1 /\ white w2 /\ digits_of l n /\
    ((sign = [] /\ z = n) \/ (sign = [43] /\ z = n) \/ (sign = [45] /\ z = - n)).
Definition true_texts : list text := map ustr ["1"; "yes"; "true"; "on"].
Definition false_texts : list text := map ustr ["0"; "no"; "false"; "off"].
Definition is_bool_text (s : text) (b : bool) : Prop := In (lower s) (if b then true_texts else false_texts).

(** ** Options of a section: its own, or those of DEFAULT *)
Definition says (i : ini) (section : string) (option value : text) : Prop :=
  exists own, dget text_eqb (i_sections i) (ustr section) = Some own /\
    (dget text_eqb own option = Some value \/
     (dget text_eqb own option = None /\ dget text_eqb (i_defaults i) option = Some value)).

(** The option [key] of LITERALS is the channel of satellite [sat]: "R7", "r07", "7", ... *)
Definition names_satellite (key : text) (sat : Z) : Prop :=
  exists a n b, key = a ++ n ++ b /\ Forall (fun c => c = 114 \/ c = 82) (a ++ b) /\
    (forall c r, n = c :: r -> c <> 114 /\ c <> 82) /\ (forall r c, n = r ++ [c] -> c <> 114 /\ c <> 82) /\
    is_int_text n sat.

(** The file content [i] gives these controls. *)
Definition margo_from (i : ini) (m : margo_controls) : Prop :=
  (forall sat, 1 <= sat <= 24 -> exists key value k, says i "LITERALS" key value /\ names_satellite key sat /\
     is_int_text value k /\ zget (glo_lit_tab m) sat = Some k) /\
  (forall sat, zget (glo_lit_tab m) sat <> None -> 1 <= sat <= 24) /\
  (exists v, says i "TIME" (ustr "gps2utc") v /\ is_int_text v (gps_utc_shift m)) /\
  (exists v, says i "MARGO" (ustr "hca") v /\ is_bool_text v (half_cycle_enable m)) /\
  (exists v, says i "MARGO" (ustr "lock_time") v /\ is_bool_text v (lock_time_enable m)).
Definition json_from (i : ini) (j : json_controls) : Prop :=
  (exists v, says i "JSON" (ustr "enable_hdr_data") v /\ is_bool_text v (enable_hdr_data j)) /\
  (exists v, says i "JSON" (ustr "enable_aux_data") v /\ is_bool_text v (enable_aux_data j)) /\
  (exists v, says i "JSON" (ustr "enable_pretty_view") v /\ is_bool_text v (enable_pretty_view j)).

(** [i] has everything that is needed for MARGO controls. *)
Definition margo_complete (i : ini) : Prop :=
  (forall key value, says i "LITERALS" key value -> exists sat, names_satellite key sat /\
     (1 <= sat <= 24 -> exists k, is_int_text value k)) /\
  (forall sat, 1 <= sat <= 24 -> exists key value, says i "LITERALS" key value /\ names_satellite key sat) /\
  (exists v z, says i "TIME" (ustr "gps2utc") v /\ is_int_text v z) /\
  (exists v b, says i "MARGO" (ustr "hca") v /\ is_bool_text v b) /\
  (exists v b, says i "MARGO" (ustr "lock_time") v /\ is_bool_text v b).

(** ** Histories *)
Inductive cevent := Init (f : ini_file) | Update (f : ini_file).
Definition walk_keys (ord : list text -> list text) : Prop := forall l, Permutation l (ord l).
(** State after a history; exceptions are caught by the caller. *)
Definition cafter (ord : list text -> list text) (h : list cevent) : controls :=
  fold_left (fun st e => match e with Init f => fst (init_from_file ord st f) | Update f => fst (update_from_file ord st f) end)
    h controls_init.

(** What has been read by a history that starts with the loading of a non-empty file. *)
Definition content (f : ini_file) : ini := match f with Missing => ini_empty | Parsed i => i | Broken i => i end.
Definition file_of_event (e : cevent) : ini_file := match e with Init f => f | Update f => f end.
Definition configuration (h : list cevent) : ini := fold_left (fun c e => merge c (content (file_of_event e))) h ini_empty.
Definition loaded (h : list cevent) : Prop := exists i r, h = Init (Parsed i) :: r /\ i_sections i <> [].

(** No two options of LITERALS are for the same satellite ("R1" and "R01"). *)
Definition unaliased (i : ini) : Prop := forall k1 v1 k2 v2 sat, 1 <= sat <= 24 ->
  says i "LITERALS" k1 v1 -> says i "LITERALS" k2 v2 -> names_satellite k1 sat -> names_satellite k2 sat -> k1 = k2.
(** The same MARGO controls. *)
Definition same_margo (m1 m2 : margo_controls) : Prop :=
  half_cycle_enable m1 = half_cycle_enable m2 /\ lock_time_enable m1 = lock_time_enable m2 /\
  gps_utc_shift m1 = gps_utc_shift m2 /\ forall sat, zget (glo_lit_tab m1) sat = zget (glo_lit_tab m2) sat.
Definition same_published (m1 m2 : option margo_controls) : Prop :=
  match m1, m2 with Some m1, Some m2 => same_margo m1 m2 | None, None => True | _, _ => False end.
