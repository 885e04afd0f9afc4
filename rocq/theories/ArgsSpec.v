(** * ArgsSpec: what the program understands of its command line (C59). *)
From Coq Require Import Ascii.
From Verif Require Import PyBase PyDict PyVal ArgsModel.
Local Open Scope string_scope.
Local Open Scope list_scope.

(** The three settings. *)
Inductive setting := Format | Ini | Ext.
(** How their names can be written in front of a separate value ... *)
Definition spellings (w : setting) : list string :=
  match w with
  | Format => ["-o"; "--output"; "--outpu"; "--outp"; "--out"; "--ou"; "--o"]
  | Ini => ["-i"; "--ini"; "--in"; "--i"]
  | Ext => ["-ext"; "-ex"; "-e"]
  end.
(** ... in front of "=value" ... *)
Definition spellings_eq (w : setting) : list string :=
  match w with Ext => ["-ext"] | _ => spellings w end.
(** ... and directly in front of the value. *)
Definition letter (w : setting) : list string :=
  match w with Format => ["-o"] | Ini => ["-i"] | Ext => [] end.

(** Arguments that are not taken for options: sources and separate values. *)
Definition decimal (c : ascii) : Prop := In c (list_ascii_of_string "0123456789").
Definition all_digits (s : string) : Prop := s <> "" /\ Forall decimal (list_ascii_of_string s).
(** Negative numbers, such as -5, -5.5 and -.5 (a newline may follow) *)
Definition negative (s : string) : Prop :=
  exists body, (s = "-" ++ body \/ s = "-" ++ body ++ String (ascii_of_nat 10) "")%string /\
    (all_digits body \/ exists a b, body = (a ++ "." ++ b)%string /\ (a = "" \/ all_digits a) /\ all_digits b).
(** Beginnings that make an argument an option whatever follows *)
Definition starts : list string := ["-h"; "-o"; "-i"; "-v"].
Definition starts_eq : list string :=
  ["-ext"; "--help"; "--hel"; "--he"; "--h"; "--output"; "--outpu"; "--outp"; "--out"; "--ou"; "--o"; "--ini"; "--in"; "--i";
   "--version"; "--versio"; "--versi"; "--vers"; "--ver"; "--ve"; "--v"; "--"].
Definition option_like (s : string) : Prop :=
  (exists p r, In p starts /\ s = (p ++ r)%string) \/ (exists p r, In p starts_eq /\ s = (p ++ "=" ++ r)%string).
Inductive plain : string -> Prop :=
| plain_empty : plain ""
| plain_word : forall c r, c <> "-"%char -> plain (String c r)
| plain_dash : plain "-"
| plain_negative : forall s, negative s -> plain s
| plain_spaced : forall r a b, ("-" ++ r = a ++ " " ++ b)%string -> ~ option_like ("-" ++ r) -> plain ("-" ++ r).

(** One setting on the command line *)
Inductive phrase : setting -> string -> list string -> Prop :=
| two_words : forall w v s, In s (spellings w) -> plain v -> phrase w v [s; v]
| with_equals : forall w v s, In s (spellings_eq w) -> phrase w v [(s ++ "=" ++ v)%string]
| glued : forall w v s c r, In s (letter w) -> v = String c r -> c <> "="%char -> phrase w v [(s ++ v)%string].
(** Several settings, in order *)
Inductive phrases : list (setting * string) -> list string -> Prop :=
| no_phrase : phrases [] []
| one_more : forall w v l s r, phrase w v l -> phrases s r -> phrases ((w, v) :: s) (l ++ r).

(** The sources stand together, with settings before and after; "--" says that everything after
    it is a source. *)
Definition says (argv : list string) (s : list (setting * string)) (srcs : list string) : Prop :=
  exists s1 s2 before block after,
    argv = before ++ block ++ after /\ s = s1 ++ s2 /\ phrases s1 before /\ phrases s2 after /\ srcs <> [] /\
    ((block = srcs /\ Forall plain srcs) \/
     (after = [] /\ exists a b, srcs = a ++ b /\ block = a ++ "--" :: b /\ Forall plain a)).

(** The last value given, or the default *)
Fixpoint last_of (w : setting) (s : list (setting * string)) (d : option string) : option string :=
  match s with
  | [] => d
  | (w', v) :: r => last_of w r (match w, w' with Format, Format | Ini, Ini | Ext, Ext => Some v | _, _ => d end)
  end.
Definition formats_known (s : list (setting * string)) : Prop := forall v, In (Format, v) s -> In v ["MARGO"; "JSON"; "JSON-B"; "JARGO"].
(** What is understood *)
Definition understood (s : list (setting * string)) (srcs : list string) (n : namespace) : Prop :=
  Some (n_format n) = last_of Format s (Some "MARGO") /\ n_ini n = last_of Ini s None /\
  Some (n_ext n) = last_of Ext s (Some "rtcm3") /\ n_source n = Some srcs.
