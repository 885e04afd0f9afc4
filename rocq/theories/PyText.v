(** * PyText: the string primitives of Python used by the decoders.  [str] is a list of code
    points; [bytes] is a list of integers 0..255. *)
From Verif Require Import PyBase PyDict PyVal.
Local Open Scope string_scope.
Local Open Scope list_scope.
Local Open Scope Z_scope.

(** Lower-case hexadecimal digit. *)
Definition hex_digit (d : Z) : Z := if d <? 10 then 48 + d else 87 + d.

(** [hex(n)] for 0 <= n < 256 - all that is needed: the argument is always
    [getbitu(buf, offset, 8)]. *)
Definition py_hex (n : Z) : list Z :=
  ustr "0x" ++ (if n <? 16 then [hex_digit n] else [hex_digit (n / 16); hex_digit (n mod 16)]).

(** [str.isspace] of one character *)
Definition is_space (c : Z) : bool :=
  existsb (Z.eqb c)
    [9; 10; 11; 12; 13; 28; 29; 30; 31; 32; 133; 160; 5760; 8192; 8193; 8194; 8195; 8196; 8197;
     8198; 8199; 8200; 8201; 8202; 8232; 8233; 8239; 8287; 12288].

Fixpoint lstrip (s : list Z) : list Z :=
  match s with [] => [] | c :: r => if is_space c then lstrip r else s end.
Definition rstrip (s : list Z) : list Z := rev (lstrip (rev s)).
(** [s.strip()] *)
Definition py_strip (s : list Z) : list Z := rstrip (lstrip s).

(** [s.split(sep)] for a one-character separator: always at least one piece. *)
Fixpoint py_split (sep : Z) (s : list Z) : list (list Z) :=
  match s with
  | [] => [[]]
  | c :: r =>
      match py_split sep r with
      | [] => [[]]   (* not reachable *)
      | p :: ps => if c =? sep then [] :: p :: ps else (c :: p) :: ps
      end
  end.

Definition hex_digit_value (c : Z) : option Z :=
  if (48 <=? c) && (c <=? 57) then Some (c - 48)
  else if (97 <=? c) && (c <=? 102) then Some (c - 87)
  else if (65 <=? c) && (c <=? 70) then Some (c - 55)
  else None.

Fixpoint hex_digits_value (acc : Z) (s : list Z) : option Z :=
  match s with
  | [] => Some acc
  | c :: r => match hex_digit_value c with
              | Some d => hex_digits_value (16 * acc + d) r
              | None => None
              end
  end.

(** [int(s, 16)]: an optional 0x prefix and at least one digit.  Signs, underscores and
    surrounding white space, which Python also accepts, do not occur in the strings passed and
    are refused here. *)
Definition py_int16 (s : list Z) : res Z :=
  let body := match s with
              | 48 :: x :: r => if (x =? 120) || (x =? 88) then r else s
              | _ => s
              end in
  match body with
  | [] => Err EValue
  | _ => match hex_digits_value 0 body with Some v => Ok v | None => Err EValue end
  end.

(** [bytes(l)]: every element must be in range(256). *)
Definition py_bytes (l : list Z) : res (list Z) :=
  if forallb (fun b => (0 <=? b) && (b <? 256)) l then Ok l else Err EValue.

(** [b.decode("utf-8")] in strict mode (Unicode standard, table 3-7). *)
Definition cont (b : Z) : bool := (128 <=? b) && (b <=? 191).
Definition between (a b x : Z) : bool := (a <=? x) && (x <=? b).

Fixpoint utf8_decode (l : list Z) : res (list Z) :=
  match l with
  | [] => Ok []
  | a :: r =>
    if between 0 0x7F a then s <- utf8_decode r ;; Ok (a :: s)
    else if between 0xC2 0xDF a then
      match r with
      | b :: r1 => if cont b then s <- utf8_decode r1 ;; Ok (64 * (a - 0xC0) + (b - 128) :: s)
                   else Err EUnicode
      | _ => Err EUnicode
      end
    else if between 0xE0 0xEF a then
      match r with
      | b :: c :: r2 =>
          if (if a =? 0xE0 then between 0xA0 0xBF b else if a =? 0xED then between 0x80 0x9F b else cont b)
             && cont c
          then s <- utf8_decode r2 ;; Ok (4096 * (a - 0xE0) + 64 * (b - 128) + (c - 128) :: s)
          else Err EUnicode
      | _ => Err EUnicode
      end
    else if between 0xF0 0xF4 a then
      match r with
      | b :: c :: d :: r3 =>
          if (if a =? 0xF0 then between 0x90 0xBF b else if a =? 0xF4 then between 0x80 0x8F b else cont b)
             && cont c && cont d
          then s <- utf8_decode r3 ;;
               Ok (262144 * (a - 0xF0) + 4096 * (b - 128) + 64 * (c - 128) + (d - 128) :: s)
          else Err EUnicode
      | _ => Err EUnicode
      end
    else Err EUnicode
  end.
