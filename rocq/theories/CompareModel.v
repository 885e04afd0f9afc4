(** * CompareModel: model of gnss_types/data_class_methods.py (comparison). *)
From Verif Require Import PyBase PyDict PyFloat PyVal EphModel BaseModel JsonModel.
Local Open Scope string_scope.
Local Open Scope list_scope.
Local Open Scope Z_scope.

(** [isinstance(A, type(B))] for values ([bool] is a subclass of [int]).
    (gnss_types/data_class_methods.py:56, 106) *)
Definition isinstance (A B : pyval) : bool :=
  match A, B with
  | VNone, VNone | VBool _, VBool _ | VInt _, VInt _ | VBool _, VInt _ | VFloat _, VFloat _ | VStr _, VStr _
  | VList _, VList _ | VTuple _, VTuple _ | VDict _, VDict _ => true
  | _, _ => false
  end.

(** [A == B] for int, str and bool; gnss_types/data_class_methods.py:63 *)
Definition as_int (v : pyval) : option Z :=
  match v with VInt z => Some z | VBool b => Some (if b then 1 else 0) | _ => None end.
(** gnss_types/data_class_methods.py:63 *)
Definition str_eqb (a b : list Z) : bool := if list_eq_dec Z.eq_dec a b then true else false.

(** [A / B]; gnss_types/data_class_methods.py:73-76 *)
Definition fdiv (x y : flt) : res flt :=
  match y with S754_zero _ => Err EZeroDiv | _ => Ok (f_div x y) end.
(** gnss_types/data_class_methods.py:67-70 *)
Definition isnan (x : flt) : bool := match x with S754_nan => true | _ => false end.

(** gnss_types/data_class_methods.py:66-78.  [math.fabs(B > f_tolerance)] is the fabs of a
    bool: true exactly if [B > f_tolerance]. *)
Definition compare_float (A B tol : flt) : res bool :=
  if isnan A && isnan B then Ok true
  else if isnan A || isnan B then Ok false
  else
    diff <- (if f_ltb tol B then q <- fdiv (f_sub B A) B ;; Ok (f_abs q) else Ok (f_abs (f_sub B A))) ;;
    Ok (f_ltb diff tol).

(** Keys of dictionaries.  Simplification: keys are ints and strings (as in the repo).
    (gnss_types/data_class_methods.py:82-86) *)
Definition key_eqb (a b : pyval) : bool :=
  match a, b with
  | VInt x, VInt y => x =? y
  | VStr x, VStr y => str_eqb x y
  | _, _ => false
  end.
(** gnss_types/data_class_methods.py:82 *)
Definition has_key (d : list (pyval * pyval)) (k : pyval) : bool := existsb (fun kv => key_eqb k (fst kv)) d.
(** [A.keys() == B.keys()]; gnss_types/data_class_methods.py:82 *)
Definition same_keys (a b : list (pyval * pyval)) : bool :=
  forallb (fun kv => has_key b (fst kv)) a && forallb (fun kv => has_key a (fst kv)) b.

(** gnss_types/data_class_methods.py:47-98 [__compare].  Lines 59-61 (data classes inside fields)
    are not modelled: no data class has a field that holds one. *)
Fixpoint compare_values (tol : flt) (A B : pyval) {struct A} : res bool :=
  if negb (isinstance A B) then Ok false
  else match A, B with
  | VBool _, _ | VInt _, _ =>
      Ok (match as_int A, as_int B with Some x, Some y => x =? y | _, _ => false end)
  | VStr a, VStr b => Ok (str_eqb a b)
  | VFloat a, VFloat b => compare_float a b tol
  | VDict a, VDict b =>
      if negb (same_keys a b) then Ok false
      else (fix entries (l : list (pyval * pyval)) : res bool :=
              match l with
              | [] => Ok true
              | (k, x) :: r =>
                  match dget key_eqb b k with
                  | None => Err EKey
                  | Some y => eq <- compare_values tol x y ;; if eq then entries r else Ok false
                  end
              end) a
  | VList a, VList b | VTuple a, VTuple b =>
      (fix items (l m : list pyval) : res bool :=
         match l, m with
         | [], [] => Ok true
         (* zip_longest: the shorter one is continued with None *)
         | [], VNone :: _ => Err EType
         | [], _ :: _ => Ok false
         | VNone :: _, [] => Err EType
         | _ :: _, [] => Ok false
         | x :: r, y :: s => eq <- compare_values tol x y ;; if eq then items r s else Ok false
         end) a b
  | _, _ => Err EType
  end.

(** The class hierarchy (gnss_types/base_station.py:28-84, gnss_types/ephemeris.py). *)
Definition bases (cls : string) : list string :=
  if String.eqb cls "BaseRPH" then ["BaseRP"]
  else if String.eqb cls "BaseADSN" then ["BaseAD"]
  else if String.eqb cls "BaseADSNRC" then ["BaseADSN"; "BaseAD"]
  else [].
Definition subclass (cls base : string) : bool := String.eqb cls base || existsb (String.eqb base) (bases cls).

(** gnss_types/data_class_methods.py:19 *)
Definition DEF_FLOAT_CMP_TOLR : flt := dec_lit 1 15.

(** gnss_types/data_class_methods.py:26-29, 100-126 [items], [compare] *)
Fixpoint compare_fields (tol : flt) (self refs : pyobj) (l : list string) : res bool :=
  match l with
  | [] => Ok true
  | key :: r =>
      value <- getattr self key ;;
      ref <- getattr refs key ;;        (* AttributeError is not caught *)
      eq <- compare_values tol value ref ;;
      if eq then compare_fields tol self refs r else Ok false
  end.
(** gnss_types/data_class_methods.py:100-126 *)
Definition compare (self refs : pyobj) (tol : flt) : res bool :=
  if negb (subclass (po_class self) (po_class refs)) then Ok false
  else compare_fields tol self refs (match dataclass_fields (po_class self) with Some l => l | None => [] end).
