(** * ArgsModel: the command line (run_conversion.py, [create_argument_parser] and [parse_args]). *)
From Coq Require Import Ascii.
From Verif Require Import PyBase PyDict PyVal.
Local Open Scope string_scope.
Local Open Scope list_scope.

(** ** run_conversion.py:162-216 [create_argument_parser] *)
(** The actions of the parser; argparse adds -h by itself. (run_conversion.py:162-217) *)
Inductive action := AHelp | AFormat | AIni | AVersion | AExt.
(** [_option_string_actions], in the order of definition; run_conversion.py:162-217 *)
Definition OPTIONS : list (string * action) :=
  [("-h", AHelp); ("--help", AHelp); ("-o", AFormat); ("--output", AFormat); ("-i", AIni); ("--ini", AIni);
   ("-v", AVersion); ("--version", AVersion); ("-ext", AExt)].
(** run_conversion.py:177 *)
Definition FORMATS : list string := ["MARGO"; "JSON"; "JSON-B"; "JARGO"].
(** Does the action take an argument (exactly one)?; run_conversion.py:162-217 *)
Definition takes_one (a : action) : bool := match a with AHelp | AVersion => false | _ => true end.

(** The namespace.  [n_source] is None until the positional argument has been seen.
    (run_conversion.py:162-217) *)
Record namespace := { n_format : string; n_ini : option string; n_ext : string; n_source : option (list string) }.
(** run_conversion.py:162-217 *)
Definition defaults : namespace := {| n_format := "MARGO"; n_ini := None; n_ext := "rtcm3"; n_source := None |}.

(** ** argparse (standard library, Python 3.11): the parts reached by this parser *)

(** argparse, called in run_conversion.py:293-296 *)
Definition minus : ascii := ascii_of_nat 45.
(** argparse, called in run_conversion.py:293-296 *)
Definition equals : ascii := ascii_of_nat 61.
(** argparse, called in run_conversion.py:293-296 *)
Definition blank : ascii := ascii_of_nat 32.
(** argparse, called in run_conversion.py:293-296 *)
Definition is_dash (c : ascii) : bool := Ascii.eqb c minus.

(** [s.partition('=')]; None: there is no '='; argparse, called in run_conversion.py:293-296 *)
Fixpoint partition_eq (s : string) : option (string * string) :=
  match s with
  | EmptyString => None
  | String c r => if Ascii.eqb c equals then Some ("", r)
                  else match partition_eq r with Some (a, b) => Some (String c a, b) | None => None end
  end.
(** argparse, called in run_conversion.py:293-296 *)
Fixpoint has_blank (s : string) : bool :=
  match s with EmptyString => false | String c r => Ascii.eqb c blank || has_blank r end.

(** [_negative_number_matcher]: ^-\d+$|^-\d*\.\d+$ (ASCII digits; "$" also matches before a final
    newline); argparse, called in run_conversion.py:293-296 *)
Definition digit (c : ascii) : bool := (48 <=? nat_of_ascii c)%nat && (nat_of_ascii c <=? 57)%nat.
(** argparse, called in run_conversion.py:293-296 *)
Definition at_end (s : string) : bool :=
  match s with EmptyString => true | String c EmptyString => Ascii.eqb c (ascii_of_nat 10) | _ => false end.
(** [more]: a digit has been seen; argparse, called in run_conversion.py:293-296 *)
Fixpoint digits_end (more : bool) (s : string) : bool :=
  (more && at_end s) || match s with String c r => digit c && digits_end true r | EmptyString => false end.
(** argparse, called in run_conversion.py:293-296 *)
Fixpoint fraction (s : string) : bool :=
  match s with
  | String c r => if Ascii.eqb c (ascii_of_nat 46) then digits_end false r else digit c && fraction r
  | EmptyString => false
  end.
(** argparse, called in run_conversion.py:293-296 *)
Definition negative_number (s : string) : bool :=
  match s with String c r => is_dash c && (digits_end false r || fraction r) | EmptyString => false end.

(** An option found in an argument: action (None: unknown option), option string, [sep]
    (None, "" or "="; here: None, Some false, Some true), explicit argument.
    (argparse, called in run_conversion.py:293-296) *)
Record found := { f_action : option action; f_option : string; f_sep : option bool; f_explicit : option string }.

(** [_get_option_tuples]; argparse, called in run_conversion.py:293-296 *)
Definition option_tuples (arg : string) : list found :=
  match arg with
  | String _ (String c2 r) =>
      if is_dash c2 then
        let '(prefix, sep, expl) := match partition_eq arg with Some (a, b) => (a, Some true, Some b) | None => (arg, None, None) end in
        flat_map (fun oa => if String.prefix prefix (fst oa)
                            then [{| f_action := Some (snd oa); f_option := fst oa; f_sep := sep; f_explicit := expl |}] else []) OPTIONS
      else
        flat_map (fun oa => if String.eqb (fst oa) (String minus (String c2 ""))
                            then [{| f_action := Some (snd oa); f_option := fst oa; f_sep := Some false; f_explicit := Some r |}]
                            else if String.prefix arg (fst oa)
                            then [{| f_action := Some (snd oa); f_option := fst oa; f_sep := None; f_explicit := None |}] else []) OPTIONS
  | _ => []    (* not reached *)
  end.

(** Kinds of arguments in [arg_strings_pattern]: A, -, O; ambiguous options are errors.
    (argparse, called in run_conversion.py:293-296) *)
Inductive tok := TArg | TDash | TOpt (f : found).
(** [_parse_optional]; None: ambiguous, [self.error];
    argparse, called in run_conversion.py:293-296 *)
Definition parse_optional (arg : string) : option tok :=
  match arg with
  | EmptyString => Some TArg
  | String c r =>
      if negb (is_dash c) then Some TArg
      else match sget OPTIONS arg with
      | Some a => Some (TOpt {| f_action := Some a; f_option := arg; f_sep := None; f_explicit := None |})
      | None =>
          match r with
          | EmptyString => Some TArg
          | _ =>
              match (match partition_eq arg with
                     | Some (o, e) => match sget OPTIONS o with Some a => Some (a, o, e) | None => None end
                     | None => None
                     end) with
              | Some (a, o, e) => Some (TOpt {| f_action := Some a; f_option := o; f_sep := Some true; f_explicit := Some e |})
              | None =>
                  match option_tuples arg with
                  | [t] => Some (TOpt t)
                  | [] => if negative_number arg then Some TArg
                          else if has_blank arg then Some TArg
                          else Some (TOpt {| f_action := None; f_option := arg; f_sep := None; f_explicit := None |})
                  | _ => None
                  end
              end
          end
      end
  end.
(** [_parse_known_args], the first loop; None: an error;
    argparse, called in run_conversion.py:293-296 *)
Fixpoint classify (args : list string) : option (list (string * tok)) :=
  match args with
  | [] => Some []
  | a :: r =>
      if String.eqb a "--" then Some ((a, TDash) :: map (fun x => (x, TArg)) r)
      else match parse_optional a with
           | None => None
           | Some t => match classify r with Some ts => Some ((a, t) :: ts) | None => None end
           end
  end.

(** How the parser ends: the arguments are accepted; help or version are shown and the program
    exits; or an error message is shown and the program exits with code 2.  [Stuck] is not
    reached (C59_ends). (argparse, called in run_conversion.py:293-296) *)
Inductive parsed := Accepted (n : namespace) | Shown | Refused | Stuck.

(** [take_action] for an option; the inner result: the program goes on;
    argparse, called in run_conversion.py:293-296 *)
Definition take_option (a : action) (v : string) (n : namespace) : parsed :=
  match a with
  | AHelp | AVersion => Shown
  | AFormat => if existsb (String.eqb v) FORMATS
               then Accepted {| n_format := v; n_ini := n_ini n; n_ext := n_ext n; n_source := n_source n |} else Refused
  | AIni => Accepted {| n_format := n_format n; n_ini := Some v; n_ext := n_ext n; n_source := n_source n |}
  | AExt => Accepted {| n_format := n_format n; n_ini := n_ini n; n_ext := v; n_source := n_source n |}
  end.
(** argparse, called in run_conversion.py:293-296 *)
Fixpoint take_options (l : list (action * string)) (n : namespace) : parsed :=
  match l with
  | [] => Accepted n
  | (a, v) :: r => match take_option a v n with Accepted n => take_options r n | p => p end
  end.
(** [_get_values] for the positional argument: the first "--" is removed.
    (argparse, called in run_conversion.py:293-296) *)
Fixpoint remove_first (l : list string) : list string :=
  match l with [] => [] | a :: r => if String.eqb a "--" then r else a :: remove_first r end.
(** argparse, called in run_conversion.py:293-296 *)
Definition set_source (l : list string) (n : namespace) : namespace :=
  {| n_format := n_format n; n_ini := n_ini n; n_ext := n_ext n; n_source := Some (remove_first l) |}.

(** [consume_optional] for an argument with an explicit value, when the action takes no argument
    and the option has one dash: the value is a series of further options.  [acc]: the actions
    collected; the result: None for an error, else the actions, whether the last one waits for
    its argument in the next string, and extras. (argparse, called in run_conversion.py:293-296) *)
Inductive consumed := CErr | CDone (l : list (action * string)) (extras : list string) | CNext (l : list (action * string)) (a : action).
(** argparse, called in run_conversion.py:293-296 *)
Fixpoint series (acc : list (action * string)) (sep : bool) (e : string) : consumed :=
  match e with
  | EmptyString => CErr
  | String c r =>
      if sep || is_dash c then CErr
      else match sget OPTIONS (String minus (String c "")) with
      | None => CDone acc [String minus e]
      | Some a =>
          match r with
          | EmptyString => CNext acc a
          | String c2 r2 =>
              if Ascii.eqb c2 equals
              then if takes_one a then CDone (acc ++ [(a, r2)]) [] else series (acc ++ [(a, "")]) true r2
              else if takes_one a then CDone (acc ++ [(a, r)]) [] else series (acc ++ [(a, "")]) false r
          end
      end
  end.
(** [consume_optional]: what the option itself gives;
    argparse, called in run_conversion.py:293-296 *)
Definition consume (arg : string) (f : found) : consumed :=
  match f_action f with
  | None => CDone [] [arg]
  | Some a =>
      match f_explicit f with
      | None => CNext [] a
      | Some e =>
          if takes_one a then CDone [(a, e)] []
          else match f_option f with
               | String _ (String c2 _) => if is_dash c2 then CErr
                                           else series [(a, "")] (match f_sep f with Some true => true | _ => false end) e
               | _ => CErr
               end
      end
  end.

(** argparse, called in run_conversion.py:293-296 *)
Definition is_opt (t : tok) : bool := match t with TOpt _ => true | _ => false end.
(** argparse, called in run_conversion.py:293-296 *)
Definition has_option (l : list (string * tok)) : bool := existsb (fun x => is_opt (snd x)) l.
(** The arguments before the next option, and those from there on;
    argparse, called in run_conversion.py:293-296 *)
Fixpoint before_option (l : list (string * tok)) : list (string * tok) * list (string * tok) :=
  match l with
  | [] => ([], [])
  | x :: r => if is_opt (snd x) then ([], l) else let '(a, b) := before_option r in (x :: a, b)
  end.
(** [_match_arguments_partial] for the positional argument: does the pattern -*A[A-]* match the
    kinds of these arguments?  If so, it matches all of them.
    (argparse, called in run_conversion.py:293-296) *)
Definition has_arg (l : list (string * tok)) : bool := existsb (fun x => match snd x with TArg => true | _ => false end) l.

(** [_parse_known_args], the main loop: [rest] are the arguments from [start_index] on.
    (argparse, called in run_conversion.py:293-296) *)
Fixpoint consume_all (fuel : nat) (rest : list (string * tok)) (n : namespace) (extras : list string) : parsed :=
  match fuel with
  | O => Stuck
  | S k =>
      let '(seg, rest') := before_option rest in
      (* positional arguments, if they are still wanted *)
      let take := match n_source n with None => has_arg seg | Some _ => false end in
      let n := if take then set_source (map fst seg) n else n in
      let extras := if take then extras else extras ++ map fst seg in
      match rest' with
      | [] =>
          match n_source n, extras with
          | None, _ => Refused                    (* required argument missing *)
          | Some _, [] => Accepted n
          | Some _, _ => Refused                  (* unrecognized arguments *)
          end
      | (arg, TOpt f) :: r =>
          let go l r extras := match take_options l n with Accepted n => consume_all k r n extras | p => p end in
          match consume arg f with
          | CErr => Refused
          | CDone l x => go l r (extras ++ x)
          | CNext l a =>
              if takes_one a then
                match r with
                | (v, TArg) :: r' => go (l ++ [(a, v)]) r' extras
                | _ => Refused                    (* expected one argument *)
                end
              else go (l ++ [(a, "")]) r extras
          end
      | _ => Stuck
      end
  end.
(** run_conversion.py:290-296 *)
Definition parse_args (args : list string) : parsed :=
  match classify args with
  | None => Refused
  | Some l => consume_all (S (length l)) l defaults []
  end.
