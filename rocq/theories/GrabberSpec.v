(** * GrabberSpec: what the capturing of test data is to put into the current directory (C69). *)
From Coq Require Import DecimalString.
From Verif Require Import PyBase PyDict BitsSpec.
Local Open Scope string_scope.
Local Open Scope list_scope.
Local Open Scope Z_scope.

(** The number of a message: the twelve bits after the three bytes of the header. *)
Definition number_of (msg : list Z) : option Z :=
  if Nat.leb 36 (length (bits_of msg)) then Some (uval (firstn 12 (skipn 24 (bits_of msg)))) else None.

(** The messages with number [n], in order. *)
Definition with_number (n : Z) (msgs : list (list Z)) : list (list Z) :=
  filter (fun m => match number_of m with Some k => k =? n | None => false end) msgs.

(** The plan of a mode: [Some (skip, take)] when messages with the number [n] are captured; the
    first [skip] of them are passed over, the next [take] are kept. *)
Definition plan (mode : string) (n : Z) : option (nat * nat) :=
  if String.eqb mode "EPH" && existsb (Z.eqb n) [1019; 1020; 1041; 1042; 1044; 1045; 1046] then Some (0, 3)%nat
  else if String.eqb mode "BASE" && existsb (Z.eqb n) [1005; 1006; 1007; 1033; 1230] then Some (0, 1)%nat
  else if String.eqb mode "MSM7" && existsb (Z.eqb n) [1077; 1087; 1097; 1127; 1137] then Some (10, 1)%nat
  else if String.eqb mode "MSM5" && existsb (Z.eqb n) [1075; 1085; 1095; 1125; 1135] then Some (10, 20)%nat
  else None.

(** The messages kept. *)
Definition kept (mode : string) (n : Z) (msgs : list (list Z)) : list (list Z) :=
  match plan mode n with
  | Some (skip, take) => firstn take (skipn skip (with_number n msgs))
  | None => []
  end.

(** The file of a number. *)
Definition file_of (n : Z) : string := "msg" ++ NilZero.string_of_int (Z.to_int n) ++ ".rtcm3".
