(** * PyJson: Python's [repr(float)] and [json.dumps].  Text is a list of code points.  Nothing
    here models a particular repo function; the calls are printers/json_printer.py:189,
    256-261, 304-309 and 341-343. *)
From Verif Require Import PyBase PyFloat PyFormat PyVal.
Local Open Scope list_scope.
Local Open Scope Z_scope.

(** ** Decimal to binary: m * 10^e (m > 0), correctly rounded *)
Definition f_of_dec (m e : Z) : flt :=
  if 0 <=? e then binary_normalize fprec femax (m * 10 ^ e) 0 false
  else match m with
       | Zpos p =>
           let '(q, e', l) := SFdiv_core_binary fprec femax (Zpos p) 0 (10 ^ (- e)) 0 in
           binary_round_aux fprec femax false q e' l
       | _ => S754_zero false
       end.

(** Structural equality of finite numbers. *)
Definition f_same (a b : flt) : bool :=
  match a, b with
  | S754_finite s m e, S754_finite s' m' e' => Bool.eqb s s' && (m =? m')%positive && (e =? e')
  | _, _ => false
  end.

(** ** [repr(x)] of a positive finite double x = m * 2^e *)

(** x < 10^j *)
Definition below_pow10 (m e j : Z) : bool :=
  let a := m * 2 ^ Z.max 0 e * 10 ^ Z.max 0 (- j) in
  let b := 10 ^ Z.max 0 j * 2 ^ Z.max 0 (- e) in
  a <? b.
(** The k with 10^(k-1) <= x < 10^k: upwards from a lower estimate; five steps are enough
    (JsonFloat.decpt_ok). *)
Definition decpt_estimate (p : Z) : Z := p * 1233 / 4096 - 1.
Definition decpt (m e : Z) : Z :=
  let j0 := decpt_estimate (Z.log2 m + e) in
  match find (below_pow10 m e) [j0; j0 + 1; j0 + 2; j0 + 3; j0 + 4] with
  | Some j => j
  | None => j0 + 5
  end.

(** floor (x * 10^f), and whether x is above / at / below the middle to the next integer *)
Definition scaled_floor (m e f : Z) : Z * comparison :=
  let a := m * 2 ^ Z.max 0 e * 10 ^ Z.max 0 f in
  let b := 2 ^ Z.max 0 (- e) * 10 ^ Z.max 0 (- f) in
  (a / b, 2 * (a mod b) ?= b).

(** The n-digit decimal d * 10^(k-n) that reads back as x, if there is one: of the two next to x,
    the nearer. *)
Definition digits_n (m e k n : Z) : option Z :=
  let x := S754_finite false (Z.to_pos m) e in
  let '(d, c) := scaled_floor m e (n - k) in
  let ok d := f_same (f_of_dec d (k - n)) x in
  let lo := ok d in
  let hi := ok (d + 1) in
  if lo && hi then
    Some (match c with Lt => d | Gt => d + 1 | Eq => if Z.even d then d else d + 1 end)
  else if lo then Some d
  else if hi then Some (d + 1)
  else None.

(** The shortest such decimal, as d and the exponent of its last digit; 17 digits are enough
    (JsonFloat.shortest_ok). *)
Fixpoint shortest_from (m e k : Z) (n : Z) (fuel : nat) : Z * Z :=
  match fuel with
  | O => (fst (scaled_floor m e (n - k)), k - n)
  | S fuel => match digits_n m e k n with
              | Some d => (d, k - n)
              | None => shortest_from m e k (n + 1) fuel
              end
  end.
Definition shortest (m e : Z) : Z * Z := shortest_from m e (decpt m e) 1 17.

Fixpoint strip_zeros (l : list Z) : list Z :=      (* leading zeros of a reversed numeral *)
  match l with 48 :: ((_ :: _) as r) => strip_zeros r | _ => l end.

(** The text of the digits ds with the decimal point after position dp
    (Python/pystrtod.c, format_float_short with 'r' and Py_DTSF_ADD_DOT_0). *)
Definition repr_text (ds : list Z) (dp : Z) : list Z :=
  let n := zlen ds in
  if (-4 <? dp) && (dp <=? 16) then
    if dp <=? 0 then [48; 46] ++ repeat 48 (Z.to_nat (- dp)) ++ ds
    else if n <=? dp then ds ++ repeat 48 (Z.to_nat (dp - n)) ++ [46; 48]
    else firstn (Z.to_nat dp) ds ++ [46] ++ skipn (Z.to_nat dp) ds
  else
    let x := dp - 1 in
    firstn 1 ds ++ (if 1 <? n then 46 :: skipn 1 ds else []) ++ [101] ++
    (if x <? 0 then 45 else 43) :: pad_left 48 2 (py_digits (Z.abs x)).

Definition repr_pos (m e : Z) : list Z :=
  let '(d, x) := shortest m e in
  let ds := py_digits d in
  repr_text (rev (strip_zeros (rev ds))) (x + zlen ds).

(** [repr(x)], with the names [json] uses for the three non-numbers. *)
Definition json_float (x : flt) : list Z :=
  match x with
  | S754_nan => [78; 97; 78]
  | S754_infinity s => (if s then [45] else []) ++ [73; 110; 102; 105; 110; 105; 116; 121]
  | S754_zero s => (if s then [45] else []) ++ [48; 46; 48]
  | S754_finite s m e => (if s then [45] else []) ++ repr_pos (Zpos m) e
  end.

(** ** [json.dumps(v, indent=indent, allow_nan=True, ensure_ascii=False)] *)

(** Lib/json/encoder.py, ESCAPE_DCT: backslash, quote, and the control characters. *)
Definition hex4 (c : Z) : list Z :=
  let h d := if d <? 10 then 48 + d else 87 + d in
  [h (c / 4096 mod 16); h (c / 256 mod 16); h (c / 16 mod 16); h (c mod 16)].
Definition json_char (c : Z) : list Z :=
  if c =? 34 then [92; 34]
  else if c =? 92 then [92; 92]
  else if c =? 10 then [92; 110]
  else if c =? 13 then [92; 114]
  else if c =? 9 then [92; 116]
  else if c =? 12 then [92; 102]
  else if c =? 8 then [92; 98]
  else if c <? 32 then [92; 117] ++ hex4 c
  else [c].
Definition json_str (s : list Z) : list Z := [34] ++ flat_map json_char s ++ [34].

(** Dictionary keys; other types of keys raise TypeError. *)
Definition json_key (k : pyval) : option (list Z) :=
  match k with
  | VStr s => Some s
  | VInt z => Some (py_int_str z)
  | VFloat x => Some (json_float x)
  | VBool b => Some (if b then [116; 114; 117; 101] else [102; 97; 108; 115; 101])
  | VNone => Some [110; 117; 108; 108]
  | _ => None
  end.

Fixpoint json_ok (v : pyval) : bool :=
  match v with
  | VList l | VTuple l => forallb json_ok l
  | VDict d => forallb (fun kv => match kv with (k, x) =>
                 match json_key k with Some _ => json_ok x | None => false end end) d
  | _ => true
  end.

Definition newline (indent : option Z) (level : Z) : list Z :=
  match indent with None => [] | Some i => 10 :: repeat 32 (Z.to_nat (i * level)) end.
Definition item_sep (indent : option Z) (level : Z) : list Z :=
  match indent with None => [44; 32] | Some _ => 44 :: newline indent level end.

Fixpoint join (sep : list Z) (l : list (list Z)) : list Z :=
  match l with [] => [] | [x] => x | x :: r => x ++ sep ++ join sep r end.

Fixpoint json_text (indent : option Z) (level : Z) (v : pyval) : list Z :=
  let bracket (a b : Z) (items : list (list Z)) :=
    match items with
    | [] => [a; b]
    | _ => [a] ++ newline indent (level + 1) ++ join (item_sep indent (level + 1)) items ++
           newline indent level ++ [b]
    end in
  match v with
  | VNone => [110; 117; 108; 108]
  | VBool true => [116; 114; 117; 101]
  | VBool false => [102; 97; 108; 115; 101]
  | VInt z => py_int_str z
  | VFloat x => json_float x
  | VStr s => json_str s
  | VList l | VTuple l => bracket 91 93 (map (json_text indent (level + 1)) l)
  | VDict d => bracket 123 125
      (map (fun kv => match kv with (k, x) =>
              json_str (match json_key k with Some s => s | None => [] end) ++ [58; 32] ++
              json_text indent (level + 1) x end) d)
  end.

Definition json_dumps (indent : option Z) (v : pyval) : res (list Z) :=
  if json_ok v then Ok (json_text indent 0 v) else Err EType.
