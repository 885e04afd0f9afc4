(** * ControlsModel: model of controls.py. *)
From Verif Require Import PyBase PyDict PyVal MargoModel JsonModel.
Local Open Scope string_scope.
Local Open Scope list_scope.
Local Open Scope Z_scope.

(** Texts: lists of code points. (texts of the INI file and of its values) *)
Definition text := list Z.
(** comparison of such texts *)
Definition text_eqb (a b : text) : bool := if list_eq_dec Z.eq_dec a b then true else false.

(** ** Python's conversions *)

(** [str.strip] in controls.py:76 *)
Fixpoint drop_while (f : Z -> bool) (l : text) : text :=
  match l with [] => [] | c :: r => if f c then drop_while f r else l end.
(** [s.strip(chars)]; controls.py:76 *)
Definition strip (f : Z -> bool) (l : text) : text := rev (drop_while f (rev (drop_while f l))).
(** White space (ASCII). ([int()] in controls.py:76, 79, 88) *)
Definition is_white (c : Z) : bool := ((9 <=? c) && (c <=? 13)) || ((28 <=? c) && (c <=? 32)).
(** [int()] in controls.py:76, 79, 88 *)
Definition is_digit (c : Z) : bool := (48 <=? c) && (c <=? 57).

(** Digits with single underscores between them; [acc] is the value of the digits before, and
    [us] tells that an underscore has just been seen. *)
(** [int()] in controls.py:76, 79, 88 *)
Fixpoint digits (acc : Z) (us : bool) (l : text) : option Z :=
  match l with
  | [] => if us then None else Some acc
  | c :: r =>
      if is_digit c then digits (10 * acc + (c - 48)) false r
      else if (c =? 95) && negb us then digits acc true r
      else None
  end.
(** [int(s)] for a str.  Simplifications: of the Unicode digits and white space only the ASCII
    ones; no limit on the number of digits. (controls.py:76, 79, 88) *)
Definition py_int (s : text) : res Z :=
  let t := strip is_white s in
  let '(neg, l) := match t with
                   | [] => (false, t)
                   | c :: r => if c =? 43 then (false, r) else if c =? 45 then (true, r) else (false, t)
                   end in
  match digits 0 true l with
  | Some z => Ok (if neg then - z else z)
  | None => Err EValue
  end.

(** [s.lower()] (ASCII letters); [getboolean] in controls.py:92-121 *)
Definition lower (s : text) : text := map (fun c => if (65 <=? c) && (c <=? 90) then c + 32 else c) s.
(** [ConfigParser.BOOLEAN_STATES]; [getboolean] in controls.py:92-121 *)
Definition BOOLEAN_STATES : list (text * bool) :=
  [(ustr "1", true); (ustr "yes", true); (ustr "true", true); (ustr "on", true);
   (ustr "0", false); (ustr "no", false); (ustr "false", false); (ustr "off", false)].
(** controls.py:92-121 *)
Definition py_boolean (s : text) : res bool :=
  match dget text_eqb BOOLEAN_STATES (lower s) with Some b => Ok b | None => Err EValue end.

(** ** ConfigParser (standard library) *)

(** The parser's content: sections with their options, and the options of section DEFAULT.
    Option names are in lower case.  Simplification: no interpolation (values without "%").
    (controls.py:39) *)
Record ini := { i_sections : list (text * list (text * text)); i_defaults : list (text * text) }.
(** controls.py:39 *)
Definition ini_empty : ini := {| i_sections := []; i_defaults := [] |}.

(** [read(file)]: what is in the file is added to what is there; the options of a section that
    exists are added to it or replaced.  A file that cannot be opened is ignored.  A file with
    errors may have been added in part when the exception is raised. (controls.py:44-51) *)
Inductive ini_file := Missing | Parsed (i : ini) | Broken (i : ini).
(** controls.py:46 *)
Definition add_options (old new : list (text * text)) : list (text * text) :=
  fold_left (fun d kv => dset text_eqb d (fst kv) (snd kv)) new old.
(** controls.py:46 *)
Definition merge (a b : ini) : ini :=
  {| i_sections := fold_left (fun d s =>
       dset text_eqb d (fst s) (add_options (match dget text_eqb d (fst s) with Some o => o | None => [] end) (snd s)))
       (i_sections b) (i_sections a);
     i_defaults := add_options (i_defaults a) (i_defaults b) |}.

(** [name in parser.sections()]; controls.py:58-65, 108 *)
Definition has_section (i : ini) (name : string) : bool :=
  match dget text_eqb (i_sections i) (ustr name) with Some _ => true | None => false end.
(** [set(parser[name])]: own options and those of DEFAULT; controls.py:70 *)
Definition options (i : ini) (name : string) : list text :=
  match dget text_eqb (i_sections i) (ustr name) with
  | Some o => map fst (add_options o (i_defaults i))
  | None => []
  end.
(** [parser[name].get(option)]; controls.py:79, 88-96, 113-121 *)
Definition get_option (i : ini) (name : string) (opt : text) : option text :=
  match dget text_eqb (i_sections i) (ustr name) with
  | Some o => match dget text_eqb o opt with Some v => Some v | None => dget text_eqb (i_defaults i) opt end
  | None => None
  end.
(** [parser[name].getint(option)], [getboolean(option)]: None if there is no such option;
    controls.py:79, 88 *)
Definition getint (i : ini) (name : string) (o : text) : res (option Z) :=
  match get_option i name o with None => Ok None | Some v => z <- py_int v ;; Ok (Some z) end.
(** controls.py:92-96, 113-121 *)
Definition getboolean (i : ini) (name : string) (o : text) : res (option bool) :=
  match get_option i name o with None => Ok None | Some v => b <- py_boolean v ;; Ok (Some b) end.

(** ** controls.py:33-43 [ConverterControls] *)
Record controls := {
  ct_margo : margo_controls; ct_json : json_controls; ct_ini : ini;
  ct_ini_ok : bool; ct_margo_ok : bool; ct_json_ok : bool }.
Definition controls_init : controls :=
  {| ct_margo := default_margo;
     ct_json := {| enable_hdr_data := false; enable_aux_data := false; enable_pretty_view := false |};
     ct_ini := ini_empty; ct_ini_ok := false; ct_margo_ok := false; ct_json_ok := false |}.

(** controls.py:44-51 [_read_ini] *)
Definition read_ini (st : controls) (f : ini_file) : controls * res bool :=
  let with_ini i := {| ct_margo := ct_margo st; ct_json := ct_json st; ct_ini := i; ct_ini_ok := ct_ini_ok st;
                       ct_margo_ok := ct_margo_ok st; ct_json_ok := ct_json_ok st |} in
  match f with
  | Missing => (st, Ok (negb (zlen (i_sections (ct_ini st)) =? 0)))
  | Parsed i => let i := merge (ct_ini st) i in (with_ini i, Ok (negb (zlen (i_sections i) =? 0)))
  | Broken i => (with_ini (merge (ct_ini st) i), Err EValue)
  end.

Section Order.
(** The order in which a set of keys is walked. *)
Variable ord : list text -> list text.

(** controls.py:75-79, the loop *)
Definition is_r (c : Z) : bool := (c =? 114) || (c =? 82).
Fixpoint literals (i : ini) (keys : list text) (mask : Z) (lt : list (Z * Z)) : res (Z * list (Z * Z)) :=
  match keys with
  | [] => Ok (mask, lt)
  | key :: r =>
      sat <- py_int (strip is_r key) ;;
      if (0 <? sat) && (sat <=? 24) then
        v <- getint i "LITERALS" key ;;
        match v with
        | Some k => literals i r (Z.lor mask (Z.shiftl 1 (sat - 1))) (zset lt sat k)
        | None => Err EType     (* not reached: [key] is an option of the section *)
        end
      else literals i r mask lt
  end.

(** controls.py:53-101 [_make_MARGO], up to the assignment of the result; None: [return False].
    ([sections()] never lists DEFAULT: lines 71-73 have no effect.) *)
Definition make_MARGO (st : controls) : res (option margo_controls) :=
  let i := ct_ini st in
  if negb (ct_ini_ok st) then Ok None
  else if negb (has_section i "LITERALS") then Ok None
  else if negb (has_section i "TIME") then Ok None
  else if negb (has_section i "MARGO") then Ok None
  else
    ml <- literals i (ord (options i "LITERALS")) 0 [] ;;
    let '(mask, lt) := ml in
    if negb (mask =? 0xFFFFFF) then Ok None
    else
      shift <- getint i "TIME" (ustr "gps2utc") ;;
      match shift with
      | None => Ok None
      | Some shift =>
          hca <- getboolean i "MARGO" (ustr "hca") ;;
          match hca with
          | None => Ok None
          | Some hca =>
              ltm <- getboolean i "MARGO" (ustr "lock_time") ;;
              match ltm with
              | None => Ok None
              | Some ltm => Ok (Some {| half_cycle_enable := hca; lock_time_enable := ltm; gps_utc_shift := shift; glo_lit_tab := lt |})
              end
          end
      end.

(** controls.py:103-126 [_make_JSON] *)
Definition make_JSON (st : controls) : res (option json_controls) :=
  let i := ct_ini st in
  if negb (ct_ini_ok st) then Ok None
  else if negb (has_section i "JSON") then Ok None
  else
    h <- getboolean i "JSON" (ustr "enable_hdr_data") ;;
    match h with
    | None => Ok None
    | Some h =>
        a <- getboolean i "JSON" (ustr "enable_aux_data") ;;
        match a with
        | None => Ok None
        | Some a =>
            p <- getboolean i "JSON" (ustr "enable_pretty_view") ;;
            match p with
            | None => Ok None
            | Some p => Ok (Some {| enable_hdr_data := h; enable_aux_data := a; enable_pretty_view := p |})
            end
        end
    end.

Definition set_margo (st : controls) (m : option margo_controls) : controls :=
  match m with
  | Some m => {| ct_margo := m; ct_json := ct_json st; ct_ini := ct_ini st; ct_ini_ok := ct_ini_ok st;
                 ct_margo_ok := ct_margo_ok st; ct_json_ok := ct_json_ok st |}
  | None => st
  end.
Definition set_json (st : controls) (j : option json_controls) : controls :=
  match j with
  | Some j => {| ct_margo := ct_margo st; ct_json := j; ct_ini := ct_ini st; ct_ini_ok := ct_ini_ok st;
                 ct_margo_ok := ct_margo_ok st; ct_json_ok := ct_json_ok st |}
  | None => st
  end.
Definition flags (st : controls) (i m j : bool) : controls :=
  {| ct_margo := ct_margo st; ct_json := ct_json st; ct_ini := ct_ini st; ct_ini_ok := i; ct_margo_ok := m; ct_json_ok := j |}.
Definition is_some {A} (x : option A) : bool := match x with Some _ => true | None => false end.

(** controls.py:128-133 [init_from_file] *)
Definition init_from_file (st : controls) (f : ini_file) : controls * res unit :=
  match read_ini st f with
  | (st, Err e) => (st, Err e)
  | (st, Ok b) =>
      let st := flags st b (ct_margo_ok st) (ct_json_ok st) in
      if b then
        match make_MARGO st with
        | Err e => (st, Err e)
        | Ok m =>
            let st := flags (set_margo st m) (ct_ini_ok st) (is_some m) (ct_json_ok st) in
            match make_JSON st with
            | Err e => (st, Err e)
            | Ok j => (flags (set_json st j) (ct_ini_ok st) (ct_margo_ok st) (is_some j), Ok tt)
            end
        end
      else (st, Ok tt)
  end.

(** controls.py:135-149 [update_from_file] *)
Definition update_from_file (st : controls) (f : ini_file) : controls * res unit :=
  if negb (ct_ini_ok st) then (st, Ok tt)
  else match read_ini st f with
  | (st, Err e) => (st, Err e)
  | (st, Ok false) => (st, Ok tt)
  | (st, Ok true) =>
      match (if ct_margo_ok st then make_MARGO st else Ok None) with
      | Err e => (st, Err e)
      | Ok m =>
          let st := set_margo st m in
          match (if ct_json_ok st then make_JSON st else Ok None) with
          | Err e => (st, Err e)
          | Ok j => (set_json st j, Ok tt)
          end
      end
  end.
End Order.

(** controls.py:151-167 [MARGO], [JSON], [boxed_controls] *)
Definition pub_MARGO (st : controls) : option margo_controls := if ct_margo_ok st then Some (ct_margo st) else None.
Definition pub_JSON (st : controls) : option json_controls := if ct_json_ok st then Some (ct_json st) else None.
Definition pub_boxed (st : controls) : option (margo_controls * json_controls) :=
  if ct_json_ok st && ct_margo_ok st then Some (ct_margo st, ct_json st) else None.
