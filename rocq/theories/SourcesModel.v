(** * SourcesModel: model of [make_list_of_source_files] in run_conversion.py. *)
From Coq Require Import Ascii.
From Verif Require Import PyBase PyDict PyVal MainModel ControlsModel.
Local Open Scope string_scope.
Local Open Scope list_scope.
Local Open Scope Z_scope.

(** ** os.path (standard library, POSIX) *)
(** run_conversion.py:239, 247, 255 *)
Definition slash : ascii := ascii_of_nat 47.
(** [s.split("/")]; run_conversion.py:239, 247, 255 *)
Fixpoint split_slash (s : string) : list string :=
  match s with
  | EmptyString => [EmptyString]
  | String c r =>
      if Ascii.eqb c slash then EmptyString :: split_slash r
      else match split_slash r with w :: ws => String c w :: ws | [] => [String c EmptyString] end
  end.
(** [posixpath.normpath] of an absolute path; [acc]: the components so far, last first.
    (run_conversion.py:239, 247, 255) *)
Fixpoint normalise (acc : list string) (comps : list string) : path :=
  match comps with
  | [] => rev acc
  | c :: r =>
      if String.eqb c "" || String.eqb c "." then normalise acc r
      else if String.eqb c ".." then normalise (tl acc) r
      else normalise (c :: acc) r
  end.
(** [os.path.abspath]; [cwd] is the working directory.  Simplification: a path that begins with
    exactly two slashes is taken as one that begins with one. (run_conversion.py:239, 247, 255) *)
Definition abspath (cwd : path) (s : string) : path :=
  match s with
  | String c _ => if Ascii.eqb c slash then normalise [] (split_slash s) else normalise (rev cwd) (split_slash s)
  | EmptyString => normalise (rev cwd) []
  end.

(** The disk: what is at a path; for a directory its names in the order of [os.scandir].
    (run_conversion.py:240-258) *)
Inductive kind := KNone | KFile | KDir (names : list string).
(** run_conversion.py:240-258 *)
Definition disk := path -> kind.
(** run_conversion.py:240, 248 *)
Definition isfile (d : disk) (p : path) : bool := match d p with KFile => true | _ => false end.
(** run_conversion.py:240 *)
Definition isdir (d : disk) (p : path) : bool := match d p with KDir _ => true | _ => false end.
(** run_conversion.py:258 *)
Definition lexists (d : disk) (p : path) : bool := match d p with KNone => false | _ => true end.

(** ** fnmatch (standard library): [fnmatch.translate] and matching of the result *)
(** run_conversion.py:258 *)
Definition code (c : ascii) : Z := Z.of_nat (nat_of_ascii c).
(** run_conversion.py:258 *)
Definition chr (n : nat) : ascii := ascii_of_nat n.
(** run_conversion.py:258 *)
Definition chars (s : string) : list ascii := list_ascii_of_string s.

(** Content of "[...]": characters and ranges.  Simplification: a range that is empty ("b-a")
    contains nothing, and that is all (CPython deletes it before it looks for a "!" in front, so
    that a "!" just behind it negates the set). (run_conversion.py:258) *)
Fixpoint in_set (fuel : nat) (stuff : list ascii) (x : ascii) : bool :=
  match fuel with
  | O => false
  | S k =>
      match stuff with
      | [] => false
      | a :: h :: b :: r =>
          if Ascii.eqb h (chr 45) then ((code a <=? code x) && (code x <=? code b)) || in_set k r x
          else Ascii.eqb a x || in_set k (h :: b :: r) x
      | a :: r => Ascii.eqb a x || in_set k r x
      end
  end.
(** The content of a set that begins here, and the pattern after its "]"; None: there is no "]".
    (run_conversion.py:258) *)
Fixpoint until_bracket (p : list ascii) : option (list ascii * list ascii) :=
  match p with
  | [] => None
  | c :: r => if Ascii.eqb c (chr 93) then Some ([], r)
              else match until_bracket r with Some (s, q) => Some (c :: s, q) | None => None end
  end.
(** run_conversion.py:258 *)
Definition set_of (p : list ascii) : option (bool * list ascii * list ascii) :=
  let '(neg, p) := match p with c :: r => if Ascii.eqb c (chr 33) then (true, r) else (false, p) | [] => (false, p) end in
  match p with
  | c :: r => if Ascii.eqb c (chr 93)      (* a "]" in front belongs to the set *)
              then match until_bracket r with Some (s, q) => Some (neg, c :: s, q) | None => None end
              else match until_bracket p with Some (s, q) => Some (neg, s, q) | None => None end
  | [] => None
  end.
(** Does the name match the pattern?; run_conversion.py:258 *)
Fixpoint fnmatch (fuel : nat) (p n : list ascii) : bool :=
  match fuel with
  | O => false
  | S k =>
      match p with
      | [] => match n with [] => true | _ => false end
      | c :: p' =>
          if Ascii.eqb c (chr 42) then fnmatch k p' n || match n with _ :: n' => fnmatch k p n' | [] => false end
          else match n with
               | [] => false
               | x :: n' =>
                   if Ascii.eqb c (chr 63) then fnmatch k p' n'
                   else if Ascii.eqb c (chr 91) then
                     match set_of p' with
                     | Some (neg, s, q) => xorb neg (in_set (length s) s x) && fnmatch k q n'
                     | None => Ascii.eqb c x && fnmatch k p' n'
                     end
                   else Ascii.eqb c x && fnmatch k p' n'
               end
      end
  end.
(** run_conversion.py:258 *)
Definition matches (pattern name : string) : bool :=
  fnmatch (S (length (chars pattern) + length (chars name))) (chars pattern) (chars name).

(** ** glob (standard library) *)
(** run_conversion.py:258 *)
Definition magic_char (c : ascii) : bool := Ascii.eqb c (chr 42) || Ascii.eqb c (chr 63) || Ascii.eqb c (chr 91).
(** run_conversion.py:258 *)
Definition has_magic (s : string) : bool := existsb magic_char (chars s).
(** run_conversion.py:258 *)
Definition starts_dot (s : string) : bool := match s with String c _ => Ascii.eqb c dot | EmptyString => false end.

(** [glob._glob1] and [glob._glob0]; run_conversion.py:258 *)
Definition glob1 (d : disk) (dironly : bool) (dir : path) (pattern : string) : list string :=
  let names := match d dir with KDir ns => ns | _ => [] end in
  let names := if dironly then filter (fun n => isdir d (dir ++ [n])) names else names in
  let names := if starts_dot pattern then names else filter (fun n => negb (starts_dot n)) names in
  filter (matches pattern) names.
(** run_conversion.py:258 *)
Definition glob0 (d : disk) (dir : path) (name : string) : list string :=
  if lexists d (dir ++ [name]) then [name] else [].
(** [glob._iglob]: the pattern is a list of components, last first. (run_conversion.py:258) *)
Fixpoint iglob (d : disk) (dironly : bool) (rpattern : list string) : list path :=
  match rpattern with
  | [] => [[]]
  | base :: dirname =>
      let dirs := if existsb has_magic dirname then iglob d true dirname else [rev dirname] in
      flat_map (fun dir => map (fun n => dir ++ [n])
        (if has_magic base then glob1 d dironly dir base else glob0 d dir base)) dirs
  end.

(** ** run_conversion.py:223-276 [make_list_of_source_files] *)
Section Select.
Variable cwd : path.
Variable d : disk.

(** lines 239-243; run_conversion.py:237-240 *)
Definition src_is_dir (args : list string) : bool :=
  match args with
  | [a] => let p := abspath cwd a in negb (isfile d p) && isdir d p
  | _ => false
  end.
(** lines 257-261: the list that is shown to the user.  ([rtcm_ext] has no "/".);
    run_conversion.py:254-258 *)
Definition shown (dir : path) (rtcm_ext : string) : list path :=
  iglob d false (("*." ++ rtcm_ext)%string :: rev dir).

(** [s.split(" ")]; run_conversion.py:266-268 *)
Fixpoint split_space (s : text) : list text :=
  match s with
  | [] => [[]]
  | c :: r => if c =? 32 then [] :: split_space r
              else match split_space r with w :: ws => (c :: w) :: ws | [] => [[c]] end
  end.
(** line 269; run_conversion.py:270 *)
Fixpoint indexes (n : Z) (words : list text) : res (list Z) :=
  match words with
  | [] => Ok []
  | w :: r => i <- py_int w ;; is <- indexes n r ;; Ok (if (0 <? i) && (i <=? n) then i - 1 :: is else is)
  end.
(** lines 262-274; [typed]: what the user answers. (run_conversion.py:259-274) *)
Definition choose (files : list path) (typed : text) : list path :=
  match files with
  | [] => []
  | _ => match indexes (zlen files) (split_space typed) with
         | Ok is => map (fun i => nth (Z.to_nat i) files []) is
         | Err _ => []
         end
  end.
(** run_conversion.py:223-276 *)
Definition make_list_of_source_files (args : list string) (rtcm_ext : string) (typed : text) : list path :=
  if src_is_dir args then choose (shown (abspath cwd (hd "" args)) rtcm_ext) typed
  else filter (isfile d) (map (abspath cwd) args).
End Select.
