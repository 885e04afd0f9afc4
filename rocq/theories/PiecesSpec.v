(** * PiecesSpec: noise between messages, and the products of a recording, of its parts and in other formats (C71, C72, C75). *)
From Verif Require Import PyBase PyDict JsonSpec MsmModel MsmSpec MargoModel MargoSpec FramerSpec.
Local Open Scope string_scope.
Local Open Scope list_scope.
Local Open Scope Z_scope.

(** [noise] is no part of a message, whatever the position in it where one starts to read:
    with [after] behind it, no position is the beginning of a message, nor of something that
    could still become one. *)
Definition quiet (noise after : list Z) : Prop :=
  forall a b, noise = a ++ b -> b <> [] -> ~ starts_valid (b ++ after) /\ ~ pending (b ++ after).

(** A message that was damaged on the way: its first three bytes (which tell its length) arrived,
    the bits that changed are odd in number, or two, or all within 24 consecutive bits. *)
Definition damaged (sent received : list Z) : Prop :=
  bytes_ok received /\ length received = length sent /\ firstn 3 received = firstn 3 sent /\
  let e := CrcSpec.error_bits sent received in
  Nat.odd (CrcSpec.weight e) = true \/ CrcSpec.weight e = 2%nat \/
  (CrcSpec.weight e <> 0%nat /\ CrcSpec.burst 24 e).

(** An observation file of a whole ([ab]) is that of its parts ([a], [b]), one after the other,
    with one header. *)
Definition joined_obs (ctl : margo_controls) (g : gnss) (p : param) (sgn : string) (a b ab : option (list Z)) : Prop :=
  match a, b with
  | None, _ => ab = b
  | _, None => ab = a
  | Some x, Some y => exists h1 h2 ra rb, is_header1 g p h1 /\ is_header2 ctl g p sgn h2 /\
      x = h1 ++ h2 ++ ra /\ y = h1 ++ h2 ++ rb /\ ab = Some (h1 ++ h2 ++ ra ++ rb)
  end.

(** A JSON file of a whole holds the elements of the parts, one after the other, behind the one
    element that names their type. *)
Definition elements (file : option (list Z)) (type : jv) (l : list jv) : Prop :=
  exists text, file = Some text /\ read_json text = Some (JArr (type :: l)).
Definition joined_json (a b ab : option (list Z)) : Prop :=
  match a, b with
  | None, None => ab = None
  | Some _, None => exists ty l, elements a ty l /\ elements ab ty l
  | None, Some _ => exists ty l, elements b ty l /\ elements ab ty l
  | Some _, Some _ => exists ty la lb, elements a ty la /\ elements b ty lb /\ elements ab ty (la ++ lb)
  end.

(** Two files are both missing, or hold the same JSON value. *)
Definition same_document (a b : option (list Z)) : Prop :=
  match a, b with
  | None, None => True
  | Some x, Some y => exists d, read_json x = Some d /\ read_json y = Some d
  | _, _ => False
  end.
