(** * Properties of the command line: C59. *)
From Coq Require Import Ascii.
From Verif Require Import PyBase PyDict PyVal PrinterSpec ArgsModel ArgsSpec ArgsProofs.
Local Open Scope string_scope.
Local Open Scope list_scope.

(** C59: the command line is accepted exactly when it says something: settings in any of their
    spellings, sources together in one place, formats among the four known ones.  Then the last
    value given for a setting counts (or the default), and the sources are those listed, in their
    order. *)
Theorem C59_exact : forall argv n,
  parse_args argv = Accepted n <-> exists s srcs, says argv s srcs /\ formats_known s /\ understood s srcs n.
Proof.
  intros argv n. split.
  - intros H. unfold parse_args in H. destruct (classify argv) as [ts|] eqn:C; [|discriminate].
    destruct (sound_before _ _ _ defaults n C eq_refl H) as (s & srcs & S & F & ->). exists s, srcs. split; [exact S|]. split; [exact F|].
    destruct (apply_meaning s defaults) as (A & B & D). unfold understood. cbn [n_format n_ini n_ext n_source]. auto.
  - intros (s & srcs & S & F & (A & B & D & E)). rewrite (complete _ _ _ S F).
    destruct (apply_meaning s defaults) as (A' & B' & D'). cbn [defaults n_format n_ini n_ext] in A', B', D'.
    destruct n as [fm ini ext src]. cbn [n_format n_ini n_ext n_source] in *. f_equal. rewrite E, B, B'. f_equal; congruence.
Qed.
Corollary C59_complete : forall argv s srcs, says argv s srcs -> formats_known s -> exists n, parse_args argv = Accepted n /\ understood s srcs n.
Proof.
  intros argv s srcs S F. rewrite (complete _ _ _ S F). eexists. split; [reflexivity|].
  destruct (apply_meaning s defaults) as (A & B & D). unfold understood. cbn [n_format n_ini n_ext n_source]. auto.
Qed.
(** The parser always ends by itself: accepted, help or version shown, or refused. *)
Theorem C59_ends : forall argv, parse_args argv <> Stuck.
Proof.
  intros argv. unfold parse_args. destruct (classify argv) as [ts|]; [|discriminate]. apply never_stuck. lia.
Qed.
(** What is accepted has at least one source and a format the program knows. *)
Theorem C59_format : forall argv n, parse_args argv = Accepted n ->
  In (n_format n) modes /\ exists src srcs, n_source n = Some (src :: srcs).
Proof.
  intros argv n H. apply C59_exact in H as (s & srcs & S & F & (A & _ & _ & E)). split.
  - assert (K : forall s d, formats_known s -> (forall v, d = Some v -> In v FORMATS) -> forall v, Some v = last_of Format s d -> In v FORMATS).
    { induction s0 as [|[w x] s0 IH]; intros d FK D v L; [apply D; auto|]. cbn [last_of] in L. revert L. apply IH.
      - intros y Y. apply FK. right. exact Y.
      - destruct w; auto. intros y [= <-]. apply FK. left. reflexivity. }
    apply (K s (Some "MARGO") F); [intros v [= <-]; left; reflexivity|exact A].
  - destruct S as (_ & _ & _ & _ & _ & _ & _ & _ & _ & NE & _). destruct srcs as [|x r]; [congruence|]. exists x, r. exact E.
Qed.
(** Settings may stand before or after the sources, with the same effect. *)
Theorem C59_either_side : forall s l srcs, phrases s l -> formats_known s -> srcs <> [] -> Forall plain srcs ->
  parse_args (l ++ srcs) = parse_args (srcs ++ l) /\
  exists n, parse_args (l ++ srcs) = Accepted n /\ understood s srcs n.
Proof.
  intros s l srcs P F NE PL.
  assert (S1 : says (l ++ srcs) s srcs).
  { exists s, [], l, srcs, []. rewrite !app_nil_r. split; [reflexivity|]. split; [reflexivity|]. split; [exact P|]. split; [constructor|]. split; [exact NE|]. left. auto. }
  assert (S2 : says (srcs ++ l) s srcs).
  { exists [], s, [], srcs, l. split; [reflexivity|]. split; [reflexivity|]. split; [constructor|]. split; [exact P|]. split; [exact NE|]. left. auto. }
  rewrite (complete _ _ _ S1 F), (complete _ _ _ S2 F). split; [reflexivity|]. eexists. split; [reflexivity|].
  destruct (apply_meaning s defaults) as (A & B & D). unfold understood. cbn [n_format n_ini n_ext n_source]. auto.
Qed.
(** A setting between two sources is not understood: the command line is refused, although each
    of its parts is in order. *)
Theorem C59_between : forall s l a b, phrases s l -> s <> [] -> formats_known s -> a <> [] -> b <> [] -> Forall plain a -> Forall plain b ->
  forall n, parse_args (a ++ l ++ b) <> Accepted n.
Proof.
  intros s l a b P NS F NA NB PA PB n H. unfold parse_args in H.
  destruct (phrases_run _ _ P) as (ts & L & LE & O & C & R).
  assert (CB : classify b = Some (map (fun x => (x, TArg)) b)) by (rewrite <- (app_nil_r b) at 1; rewrite (classify_plain _ [] PB); cbn; rewrite app_nil_r; reflexivity).
  rewrite (classify_plain _ _ PA), C, CB in H.
  assert (OB : opt_first (ts ++ map (fun x => (x, TArg)) b)).
  { destruct ts; [|exact O]. destruct l; [|discriminate L]. destruct s; [congruence|cbn in LE; lia]. }
  set (A := map (fun x => (x, TArg)) a) in *. set (B := map (fun x => (x, TArg)) b) in *.
  assert (FA : Forall (fun x : string * tok => is_opt (snd x) = false) A) by (apply Forall_forall; intros x I; apply in_map_iff in I as (y & <- & _); reflexivity).
  assert (FB : Forall (fun x : string * tok => is_opt (snd x) = false) B) by (apply Forall_forall; intros x I; apply in_map_iff in I as (y & <- & _); reflexivity).
  assert (HA : has_arg A = true) by (unfold A; destruct a; [congruence|reflexivity]).
  rewrite block_run in H; auto.
  assert (K : exists k, S (length (A ++ ts ++ B)) = (length s + S k)%nat).
  { rewrite !app_length. exists (length A + (length ts - length s) + length B)%nat. lia. }
  destruct K as (k & K). rewrite K in H. rewrite (R F) in H.
  cbn [consume_all] in H. rewrite <- (app_nil_r B) in H. rewrite (before_option_app B [] FB I) in H.
  rewrite apply_source in H. cbn [set_source n_source] in H. rewrite apply_source in H. cbn [n_source] in H.
  unfold B in H. rewrite map_fst_pair in H. destruct b; [congruence|]. discriminate.
Qed.

(** Non-vacuity: settings in four spellings, a file name that begins with a dash, and refusals. *)
Example C59_nonvacuous :
  (exists s srcs n,
     let argv := ["-oJSON"; "--ini=my.ini"; "a.rtcm3"; "b.rtcm3"; "-e"; "rtcm"; "--out"; "JARGO"] in
     says argv s srcs /\ formats_known s /\ understood s srcs n /\
     parse_args argv = Accepted n /\
     n = {| n_format := "JARGO"; n_ini := Some "my.ini"; n_ext := "rtcm"; n_source := Some ["a.rtcm3"; "b.rtcm3"] |}) /\
  parse_args ["-i"; "x"; "--"; "-o.rtcm3"] =
    Accepted {| n_format := "MARGO"; n_ini := Some "x"; n_ext := "rtcm3"; n_source := Some ["-o.rtcm3"] |} /\
  parse_args ["a"; "-o"; "JSON"; "b"] = Refused /\
  parse_args ["a"; "-o"; "XML"] = Refused /\
  parse_args ["-o"; "JSON"] = Refused /\
  parse_args ["a"; "-h"] = Shown /\
  parse_args ["a"; "--speed"] = Refused.
Proof.
  split; [|vm_compute; repeat split; reflexivity].
  exists [(Format, "JSON"); (Ini, "my.ini"); (Ext, "rtcm"); (Format, "JARGO")], ["a.rtcm3"; "b.rtcm3"]. eexists. cbv zeta.
  assert (W : forall c r, Ascii.eqb c minus = false -> plain (String c r)) by (intros c r N; apply plain_word, Ascii.eqb_neq, N).
  split; [|split; [|split; [|split; [vm_compute; reflexivity|reflexivity]]]].
  - exists [(Format, "JSON"); (Ini, "my.ini")], [(Ext, "rtcm"); (Format, "JARGO")], ["-oJSON"; "--ini=my.ini"], ["a.rtcm3"; "b.rtcm3"], ["-e"; "rtcm"; "--out"; "JARGO"].
    split; [reflexivity|]. split; [reflexivity|]. split; [|split; [|split; [discriminate|]]].
    + apply (one_more Format "JSON" ["-oJSON"]). { apply (glued Format "JSON" "-o" (ascii_of_nat 74) "SON"); [left; reflexivity|reflexivity|discriminate]. }
      apply (one_more Ini "my.ini" ["--ini=my.ini"]); [|constructor]. apply (with_equals Ini "my.ini" "--ini"). right; left; reflexivity.
    + apply (one_more Ext "rtcm" ["-e"; "rtcm"]). { apply two_words; [right; right; left; reflexivity|apply W; reflexivity]. }
      apply (one_more Format "JARGO" ["--out"; "JARGO"]); [|constructor]. apply two_words; [do 4 right; left; reflexivity|apply W; reflexivity].
    + left. split; [reflexivity|]. constructor; [apply W; reflexivity|constructor; [apply W; reflexivity|constructor]].
  - intros v [E|[E|[E|[E|[]]]]]; try discriminate E; injection E as <-; [right; left|do 3 right; left]; reflexivity.
  - repeat split.
Qed.

Print Assumptions C59_exact.
Print Assumptions C59_ends.
Print Assumptions C59_format.
Print Assumptions C59_either_side.
Print Assumptions C59_between.
