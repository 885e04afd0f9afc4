(** * JsonSpec: JSON (RFC 8259).  A reader of JSON texts (lists of code points).  Integers are
    read exactly; a number with a fraction or an exponent is read as the nearest binary64
    number ([real_of_decimal], characterised by JsonFloat.f_of_dec_spec). *)
From Flocq Require Import BinarySingleNaN.
From Verif Require Import PyBase PyFloat PyFormat PyVal PyJson.
Local Open Scope list_scope.
Local Open Scope Z_scope.

Inductive jv :=
| JNull
| JBool (b : bool)
| JInt (z : Z)
| JReal (x : flt)
| JStr (s : list Z)
| JArr (l : list jv)
| JObj (d : list (list Z * jv)).

(** ** Lexical parts *)
(** The rest after the character c, if s starts with it. *)
Definition eat (c : Z) (s : list Z) : option (list Z) :=
  match s with x :: r => if x =? c then Some r else None | [] => None end.

Definition is_ws (c : Z) : bool := (c =? 32) || (c =? 9) || (c =? 10) || (c =? 13).
Fixpoint skip_ws (s : list Z) : list Z :=
  match s with c :: r => if is_ws c then skip_ws r else s | [] => [] end.

Definition is_digit (c : Z) : bool := (48 <=? c) && (c <=? 57).
Fixpoint take_digits (s : list Z) : list Z * list Z :=
  match s with
  | c :: r => if is_digit c then let '(d, t) := take_digits r in (c :: d, t) else ([], s)
  | [] => ([], [])
  end.
Definition decimal (ds : list Z) : Z := fold_left (fun a c => 10 * a + (c - 48)) ds 0.

(** int: a single 0, or digits not starting with 0 *)
Definition int_ok (ds : list Z) : bool :=
  match ds with [] => false | [_] => true | c :: _ => negb (c =? 48) end.

(** frac: "." 1*digit; exp: e [+/-] 1*digit.  The result None is a syntax error; Some (None, _)
    means the part is absent. *)
Definition take_frac (s : list Z) : option (option (list Z) * list Z) :=
  match eat 46 s with
  | Some r => match take_digits r with ([], _) => None | (f, t) => Some (Some f, t) end
  | None => Some (None, s)
  end.
Definition take_exp (s : list Z) : option (option Z * list Z) :=
  match (match eat 101 s with Some r => Some r | None => eat 69 s end) with
  | Some r =>
      let '(neg, r) := match eat 45 r with
                       | Some t => (true, t)
                       | None => match eat 43 r with Some t => (false, t) | None => (false, r) end
                       end in
      match take_digits r with
      | ([], _) => None
      | (d, t) => Some (Some (if neg then - decimal d else decimal d), t)
      end
  | None => Some (None, s)
  end.

Definition real_of_decimal (neg : bool) (m e : Z) : flt :=
  let x := if m =? 0 then S754_zero false else f_of_dec m e in
  if neg then SFopp x else x.

(** number: [-] int [frac] [exp] *)
Definition take_number (s : list Z) : option (jv * list Z) :=
  let '(neg, s) := match eat 45 s with Some r => (true, r) | None => (false, s) end in
  let '(ip, s) := take_digits s in
  if negb (int_ok ip) then None
  else match take_frac s with
  | None => None
  | Some (fr, s) =>
      match take_exp s with
      | None => None
      | Some (ex, s) =>
          match fr, ex with
          | None, None => Some (JInt (if neg then - decimal ip else decimal ip), s)
          | _, _ =>
              let f := match fr with Some f => f | None => [] end in
              let x := match ex with Some x => x | None => 0 end in
              Some (JReal (real_of_decimal neg (decimal (ip ++ f)) (x - zlen f)), s)
          end
      end
  end.

Definition hex_value (c : Z) : option Z :=
  if is_digit c then Some (c - 48)
  else if (97 <=? c) && (c <=? 102) then Some (c - 87)
  else if (65 <=? c) && (c <=? 70) then Some (c - 55)
  else None.
Definition take_hex4 (s : list Z) : option (Z * list Z) :=
  match s with
  | a :: b :: c :: d :: r =>
      match hex_value a, hex_value b, hex_value c, hex_value d with
      | Some a, Some b, Some c, Some d => Some (((a * 16 + b) * 16 + c) * 16 + d, r)
      | _, _, _, _ => None
      end
  | _ => None
  end.

(** The rest of a string after the opening quote.  Raw control characters are errors; so are,
    for simplicity, escaped surrogates. *)
Fixpoint take_string (fuel : nat) (s : list Z) : option (list Z * list Z) :=
  match fuel with
  | O => None
  | S fuel =>
      let char c r := match take_string fuel r with Some (t, r) => Some (c :: t, r) | None => None end in
      match s with
      | [] => None
      | c :: r =>
          if c =? 34 then Some ([], r)
          else if c =? 92 then
            match r with
            | [] => None
            | e :: r =>
                if e =? 34 then char 34 r else if e =? 92 then char 92 r else if e =? 47 then char 47 r
                else if e =? 98 then char 8 r else if e =? 102 then char 12 r
                else if e =? 110 then char 10 r else if e =? 114 then char 13 r
                else if e =? 116 then char 9 r
                else if e =? 117 then
                  match take_hex4 r with
                  | Some (c, r) => if (55296 <=? c) && (c <=? 57343) then None else char c r
                  | None => None
                  end
                else None
            end
          else if c <? 32 then None else char c r
      end
  end.

Fixpoint take_literal (lit s : list Z) : option (list Z) :=
  match lit, s with
  | [], _ => Some s
  | a :: lit, c :: s => if a =? c then take_literal lit s else None
  | _ :: _, [] => None
  end.

(** ** Values.  [value] expects leading white space to be skipped. *)
Fixpoint value (fuel : nat) (s : list Z) : option (jv * list Z) :=
  match fuel with
  | O => None
  | S fuel =>
      match s with
      | [] => None
      | c :: r =>
          if c =? 123 then                                             (* { *)
            match eat 125 (skip_ws r) with
            | Some t => Some (JObj [], t)
            | None => match members fuel (skip_ws r) with Some (d, t) => Some (JObj d, t) | None => None end
            end
          else if c =? 91 then                                         (* [ *)
            match eat 93 (skip_ws r) with
            | Some t => Some (JArr [], t)
            | None => match elements fuel (skip_ws r) with Some (l, t) => Some (JArr l, t) | None => None end
            end
          else if c =? 34 then
            match take_string fuel r with Some (x, t) => Some (JStr x, t) | None => None end
          else if c =? 116 then option_map (fun t => (JBool true, t)) (take_literal [116; 114; 117; 101] s)
          else if c =? 102 then
            option_map (fun t => (JBool false, t)) (take_literal [102; 97; 108; 115; 101] s)
          else if c =? 110 then option_map (fun t => (JNull, t)) (take_literal [110; 117; 108; 108] s)
          else take_number s
      end
  end
(** value *( "," value ) "]" *)
with elements (fuel : nat) (s : list Z) : option (list jv * list Z) :=
  match fuel with
  | O => None
  | S fuel =>
      match value fuel s with
      | None => None
      | Some (v, t) =>
          match eat 44 (skip_ws t) with
          | Some t => match elements fuel (skip_ws t) with Some (l, t) => Some (v :: l, t) | None => None end
          | None => option_map (fun t => ([v], t)) (eat 93 (skip_ws t))
          end
      end
  end
(** string ":" value *( "," string ":" value ) "}" *)
with members (fuel : nat) (s : list Z) : option (list (list Z * jv) * list Z) :=
  match fuel with
  | O => None
  | S fuel =>
      match eat 34 s with
      | None => None
      | Some r =>
      match take_string fuel r with
      | None => None
      | Some (k, t) =>
      match eat 58 (skip_ws t) with
      | None => None
      | Some t =>
      match value fuel (skip_ws t) with
      | None => None
      | Some (v, t) =>
          match eat 44 (skip_ws t) with
          | Some t => match members fuel (skip_ws t) with
                      | Some (d, t) => Some ((k, v) :: d, t)
                      | None => None
                      end
          | None => option_map (fun t => ([(k, v)], t)) (eat 125 (skip_ws t))
          end
      end end end end
  end.

(** A JSON text.  One more than the number of characters is enough fuel: every step consumes a
    character. *)
Definition read_json (s : list Z) : option jv :=
  match value (S (length s)) (skip_ws s) with
  | Some (v, t) => match skip_ws t with [] => Some v | _ => None end
  | None => None
  end.

(** ** The JSON value of a Python value.  Integer keys of a dictionary become their decimal
    numerals; tuples become arrays. *)
Definition key_text (k : pyval) : list Z :=
  match k with VStr s => s | VInt z => py_int_str z | _ => [] end.
Fixpoint jv_of (v : pyval) : jv :=
  match v with
  | VNone => JNull
  | VBool b => JBool b
  | VInt z => JInt z
  | VFloat x => JReal x
  | VStr s => JStr s
  | VList l | VTuple l => JArr (map jv_of l)
  | VDict d => JObj (map (fun kv => match kv with (k, x) => (key_text k, jv_of x) end) d)
  end.

(** Values that have a JSON representation: floats are (well-formed) finite numbers, characters
    are Unicode code points, keys are strings or integers. *)
Definition text_ok (s : list Z) : Prop := Forall (fun c => 0 <= c) s.
Definition key_ok (k : pyval) : Prop :=
  match k with VStr s => text_ok s | VInt _ => True | _ => False end.
Fixpoint clean (v : pyval) : Prop :=
  match v with
  | VNone | VBool _ | VInt _ => True
  | VFloat x => is_finite_SF x = true /\ SpecFloat.valid_binary fprec femax x = true
  | VStr s => text_ok s
  | VList l | VTuple l => fold_right (fun x p => clean x /\ p) True l
  | VDict d => fold_right (fun kv p => match kv with (k, x) => (key_ok k /\ clean x) /\ p end) True d
  end.
