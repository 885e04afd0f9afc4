(** * PropertiesJson: C33, C34, C35 - the JSON files. *)
From Coq Require Import Lia.
From Verif Require Import PyBase PyDict PyFloat PyVal PyFormat PyJson JsonSpec JsonNumbers JsonProofs BitsSpec MessageSpec
  MsmModel EphModel BaseModel DecoderModel DecoderSpec PropertiesDecoder TestData PropertiesEph
  JsonModel JsonFileSpec JsonFiles JsonDecoded.
Local Open Scope string_scope.
Local Open Scope list_scope.
Local Open Scope Z_scope.

(** ** C33: valid JSON arrays after release *)

(** Whatever is printed in whatever order, and whichever files cannot be created: after release
    the file of each message number holds the array of the objects of that number that were not
    refused, in order, or is untouched if there were none.  [json_of] does not depend on the
    pretty-view switch. *)
Theorem C33_files : forall ctl before ses st rs,
  jp_open before = [] -> Forall (fun e => object_ok ctl (fst e)) ses ->
  print_session ctl before ses = (st, rs) ->
  forall num s, zget JSON_SPEC num = Some s ->
    holds ctl before (json_close st) (json_path s) (printed num ses rs).
Proof.
  intros ctl before ses st rs O F P num s S.
  pose proof (session_state ctl before ses F before (fun _ => []) (nothing_open ctl before O)) as A.
  rewrite P in A. destruct A as (Ok & A). specialize (A num s S). cbn [app] in A.
  pose proof (printed_ok ctl num ses F rs) as FP. pose proof (close_state ctl before st num s _ Ok S A) as C.
  unfold holds. destruct (printed num ses rs) as [|x r]; cbn [recorded] in C; [exact C|].
  destruct (C FP) as (c & G & R). exists c. split; [exact G|exact R].
Qed.
Print Assumptions C33_files.

Theorem C33_view_irrelevant : forall h a p p' x,
  json_of {| enable_hdr_data := h; enable_aux_data := a; enable_pretty_view := p |} x =
  json_of {| enable_hdr_data := h; enable_aux_data := a; enable_pretty_view := p' |} x.
Proof. reflexivity. Qed.
Print Assumptions C33_view_irrelevant.

(** Nothing is refused unless its file cannot be created. *)
Theorem C33_refused_only : forall ctl before ses st rs x can st' r,
  jp_open before = [] -> Forall (fun e => object_ok ctl (fst e)) ses ->
  print_session ctl before ses = (st, rs) -> object_ok ctl x -> json_print ctl can st x = (st', r) ->
  exists num s, number_of x = Some num /\ zget JSON_SPEC num = Some s /\
    (r = Ok tt \/ (r = Err EAssert /\ can (json_path s) = false /\ printed num ses rs = [] /\ st' = st)).
Proof.
  intros ctl before ses st rs x can st' r O F P X R.
  pose proof (session_state ctl before ses F before (fun _ => []) (nothing_open ctl before O)) as A.
  rewrite P in A. destruct A as (Ok' & A).
  destruct (print_ops_ok ctl st x X) as (num & s & N & S & E). exists num, s. split; [exact N|]. split; [exact S|].
  unfold json_print in R. rewrite E in R. specialize (A num s S). cbn [app] in A.
  set (ops := append_ops st (class_of x) num (json_path s) ([44; 13] ++ obj_text ctl x)) in *.
  assert (L : firstn 3 ops = ops) by (apply firstn_all2; unfold ops, append_ops; destruct (zget (jp_open st) num); cbn; lia).
  destruct (can (json_path s)) eqn:C.
  - destruct (prefix_state ctl before can st x num s _ 3 Ok' S A ltac:(auto)) as (st1 & D & _).
    fold ops in D. rewrite L in D. rewrite D in R. left. congruence.
  - destruct (printed num ses rs) as [|y q] eqn:PR; cbn [recorded] in A.
    + right. destruct A as (G & _). pose proof (refused_state can st x num s ([44; 13] ++ obj_text ctl x) 2 G C) as D.
      fold ops in D. rewrite L in D. rewrite D in R. repeat split; congruence.
    + destruct (prefix_state ctl before can st x num s _ 3 Ok' S A ltac:(discriminate)) as (st1 & D & _).
      fold ops in D. rewrite L in D. rewrite D in R. left. congruence.
Qed.
Print Assumptions C33_refused_only.

(** Every object the decoder returns can be printed, and its message number is the one in its
    frame. *)
Theorem C33_decoded_ok : forall ctl bare h msg payload crc o,
  standard_history bare h -> transport_frame msg payload crc -> answer h msg = Ok (Some o) ->
  object_ok ctl o /\ exists n, has_number msg n /\ number_of o = Some n.
Proof. exact decoded_object. Qed.
Print Assumptions C33_decoded_ok.

(** Together: the files of a run in which only decoded objects are printed. *)
Definition decoded (bare : bool) (o : rtcm_obj) : Prop :=
  exists h msg payload crc, standard_history bare h /\ transport_frame msg payload crc /\ answer h msg = Ok (Some o).
Theorem C33_run : forall ctl bare before ses st rs,
  jp_open before = [] -> Forall (fun e => decoded bare (fst e)) ses ->
  print_session ctl before ses = (st, rs) ->
  forall num s, zget JSON_SPEC num = Some s ->
    holds ctl before (json_close st) (json_path s) (printed num ses rs).
Proof.
  intros ctl bare before ses st rs O F P. apply C33_files; [exact O| |exact P].
  eapply Forall_impl; [|exact F]. intros [x can] (h & msg & payload & crc & S & T & A). now apply (decoded_object ctl bare h msg payload crc).
Qed.
Print Assumptions C33_run.

(** Files that are not in the table are never touched. *)
Lemma step_other ctl can st x path : open_ok st -> (forall num s, zget JSON_SPEC num = Some s -> json_path s <> path) ->
  forall k, let st' := fst (do_ops can st (firstn k (match print_ops ctl st x with Ok l => l | Err _ => [] end))) in
  open_ok st' /\ sget (jp_files st') path = sget (jp_files st) path.
Proof.
  intros O X k.
  assert (W : forall st n t, open_ok st -> sget (jp_files (fst (do_op can st (OpWrite n t)))) path = sget (jp_files st) path).
  { intros st0 n t (_ & P). cbn [do_op]. destruct (zget (jp_open st0) n) as [p|] eqn:G; [|reflexivity].
    apply (dget_In Z.eqb z_eqb_spec) in G. destruct (P _ _ G) as (s & S & ->). cbn [fst jp_files]. apply sget_other. now apply (X n). }
  assert (D : forall l st, open_ok st -> (forall op, In op l -> match op with OpOpen n p => exists s, zget JSON_SPEC n = Some s /\ p = json_path s | OpWrite _ _ => True end) ->
     open_ok (fst (do_ops can st l)) /\ sget (jp_files (fst (do_ops can st l))) path = sget (jp_files st) path).
  { induction l as [|op l IH]; intros st0 O0 H; [cbn; auto|]. cbn [do_ops].
    assert (H1 : open_ok (fst (do_op can st0 op)) /\ sget (jp_files (fst (do_op can st0 op))) path = sget (jp_files st0) path).
    { destruct op as [n p|n t].
      - destruct (H _ (or_introl eq_refl)) as (s & S & ->). split; [now apply do_open_ok|].
        cbn [do_op]. destruct (can (json_path s)); [|reflexivity]. cbn [fst jp_files]. apply sget_other. now apply (X n).
      - split; [now apply do_write_ok|now apply W]. }
    destruct (do_op can st0 op) as [st1 [u|e]]; cbn [fst] in H1; [|cbn; tauto].
    destruct H1 as (O1 & E1). destruct (IH st1 O1 (fun op' I => H op' (or_intror I))) as (O2 & E2). split; [exact O2|congruence]. }
  apply D; [exact O|]. intros op I. assert (I' : forall A (x : A) k l, In x (firstn k l) -> In x l).
  { intros A y. induction k0; intros [|a l] Hy; cbn in *; try tauto. destruct Hy; auto. }
  apply I' in I. clear I'.
  unfold print_ops in I. destruct (data_string ctl x) as [[t v]|]; cbn [bind] in I; [|destruct I].
  destruct v; try destruct I. destruct (zget JSON_SPEC z) as [s|] eqn:S; [|destruct I]. unfold append_ops in I.
  destruct (zget (jp_open st) z); repeat (destruct I as [<-|I]; [try exact Logic.I; eauto|]); try destruct I.
Qed.

Theorem C33_other_files : forall ctl before ses st rs path,
  jp_open before = [] -> print_session ctl before ses = (st, rs) ->
  (forall num s, zget JSON_SPEC num = Some s -> json_path s <> path) ->
  sget (jp_files (json_close st)) path = sget (jp_files before) path.
Proof.
  intros ctl before ses st rs path O P X.
  assert (G : forall ses st0 st rs, open_ok st0 -> print_session ctl st0 ses = (st, rs) ->
    open_ok st /\ sget (jp_files st) path = sget (jp_files st0) path).
  { clear ses st rs O P. induction ses as [|[x can] ses IH]; intros st0 st rs O P; cbn [print_session] in P.
    - injection P as <- <-. auto.
    - destruct (json_print ctl can st0 x) as [st1 r] eqn:J. destruct (print_session ctl st1 ses) as [st2 rs'] eqn:Q.
      injection P as <- <-. pose proof (step_other ctl can st0 x path O X 4) as H. cbv zeta in H.
      assert (E1 : fst (do_ops can st0 (firstn 4 (match print_ops ctl st0 x with Ok l => l | Err _ => [] end))) = st1).
      { unfold json_print in J. unfold print_ops in J |- *.
        destruct (data_string ctl x) as [[t v]|e]; cbn [bind] in *; [|cbn; congruence].
        destruct v; cbn [bind] in *; try (cbn; congruence). destruct (zget JSON_SPEC z); [|cbn; congruence].
        rewrite firstn_all2; [now rewrite J|]. unfold append_ops. destruct (zget (jp_open st0) z); cbn; lia. }
      rewrite E1 in H. destruct H as (O1 & F1). destruct (IH _ _ _ O1 Q) as (O2 & F2). split; [exact O2|congruence]. }
  destruct (G ses before st rs) as (O' & E); [split; rewrite O; [constructor|intros ? ? []]|exact P|].
  rewrite close_files by exact O'. destruct (existsb _ _) eqn:B; [|exact E]. exfalso.
  apply existsb_exists in B. destruct B as (q & I & B). apply String.eqb_eq in B. subst q.
  apply in_map_iff in I. destruct I as ((n & p) & E' & I). cbn in E'. subst p. destruct O' as (_ & O').
  destruct (O' _ _ I) as (s & S & ->). exact (X n s S eq_refl).
Qed.
Print Assumptions C33_other_files.

(** ** C34: interruption *)

(** A run is interrupted after [k] file operations of printing [x], and the printer is closed:
    every file holds the document of the objects printed before, or that with [x] added - except
    the file of [x] itself if it was not opened before [x]: after the second operation it is an
    array with the class only, and after the first it is ["\r]"].  Missing: this last case. *)
Theorem C34_interrupted_partial : forall ctl before ses st rs x can k,
  jp_open before = [] -> Forall (fun e => object_ok ctl (fst e)) ses -> object_ok ctl x ->
  print_session ctl before ses = (st, rs) ->
  let after := json_close (print_interrupted ctl can st x k) in
  forall num s, zget JSON_SPEC num = Some s ->
    holds ctl before after (json_path s) (printed num ses rs) \/
    (number_of x = Some num /\
     (holds ctl before after (json_path s) (printed num ses rs ++ [x]) \/
      (printed num ses rs = [] /\ k = 2%nat /\ exists content,
         sget (jp_files after) (json_path s) = Some content /\
         read_json content = Some (JArr [JObj [(ustr "source_type", JStr (ustr (class_of x)))]])) \/
      (printed num ses rs = [] /\ k = 1%nat /\ sget (jp_files after) (json_path s) = Some [13; 93]))).
Proof.
  intros ctl before ses st rs x can k O F X P after num' s' S'.
  pose proof (session_state ctl before ses F before (fun _ => []) (nothing_open ctl before O)) as A.
  rewrite P in A. destruct A as (Ok' & A). cbn [app] in A.
  destruct (print_ops_ok ctl st x X) as (num & s & N & S & E). unfold after, print_interrupted. rewrite E.
  pose proof (fun n => printed_ok ctl n ses F rs) as FP.
  assert (K0 : forall st', open_ok st' -> fstate ctl before st' num' (json_path s') (recorded (printed num' ses rs)) ->
    holds ctl before (json_close st') (json_path s') (printed num' ses rs)).
  { intros st' O' H. pose proof (close_state ctl before st' num' s' _ O' S' H) as C. unfold holds. specialize (FP num').
    destruct (printed num' ses rs) as [|y r]; cbn [recorded] in C; [exact C|]. exact (C FP). }
  destruct k as [|k]; [cbn [firstn do_ops fst]; left; apply K0; auto|].
  destruct (zget (jp_open st) num) as [p|] eqn:G; [|destruct (can (json_path s)) eqn:C].
  3:{ rewrite (refused_state can st x num s _ k G C). left. apply K0; auto. }
  1,2: assert (Q : recorded (printed num ses rs) = None -> can (json_path s) = true)
    by (intros Q; specialize (A num s S); rewrite Q in A; destruct A; congruence).
  1,2: destruct (prefix_state ctl before can st x num s _ (Datatypes.S k) Ok' S (A num s S) Q) as (st' & R & O' & F' & Y).
  1,2: rewrite R; cbn [fst].
  1,2: destruct (Z.eq_dec num' num) as [->|D]; [|left; apply K0; [exact O'|apply Y; auto]].
  1,2: assert (s' = s) as -> by congruence; right; split; [exact N|].
  1,2: assert (FX : Forall (object_ok ctl) (printed num ses rs ++ [x])) by (apply Forall_app; split; [apply FP|constructor; [exact X|constructor]]).
  1,2: destruct (printed num ses rs) as [|y r] eqn:PR; cbn [recorded progress app] in F', FX |- *.
  2,4: left; exact (close_state ctl before st' num s _ O' S' F' FX).
  1: exfalso; specialize (A num s S); rewrite PR in A; destruct A; congruence.
  destruct k as [|[|k]].
  - right. right. split; [reflexivity|]. split; [reflexivity|]. destruct F' as (G1 & T1).
    rewrite close_files by exact O'. rewrite (open_path st' num s O' S), G1, T1. reflexivity.
  - right. left. split; [reflexivity|]. split; [reflexivity|]. exact (close_state ctl before st' num s _ O' S' F' (Forall_nil _)).
  - left. exact (close_state ctl before st' num s _ O' S' F' FX).
Qed.
Print Assumptions C34_interrupted_partial.

(** A file that already holds an object stays valid at every interruption point. *)
Theorem C34_started_partial : forall ctl before ses st rs x can k,
  jp_open before = [] -> Forall (fun e => object_ok ctl (fst e)) ses -> object_ok ctl x ->
  print_session ctl before ses = (st, rs) ->
  forall num s, zget JSON_SPEC num = Some s -> printed num ses rs <> [] ->
    let after := json_close (print_interrupted ctl can st x k) in
    holds ctl before after (json_path s) (printed num ses rs) \/
    holds ctl before after (json_path s) (printed num ses rs ++ [x]).
Proof.
  intros ctl before ses st rs x can k O F X P num s S NE after.
  destruct (C34_interrupted_partial ctl before ses st rs x can k O F X P num s S) as [H|(_ & [H|[(E & _)|(E & _)]])]; auto; congruence.
Qed.
Print Assumptions C34_started_partial.

(** The case that is missing is reached: whenever the first object of a number is interrupted
    right after its file was created, the file is not JSON after release. *)
Theorem C34_created_file_refuted : forall ctl before ses st rs x can num s,
  jp_open before = [] -> Forall (fun e => object_ok ctl (fst e)) ses -> object_ok ctl x ->
  print_session ctl before ses = (st, rs) ->
  number_of x = Some num -> zget JSON_SPEC num = Some s -> printed num ses rs = [] -> can (json_path s) = true ->
  broken (json_close (print_interrupted ctl can st x 1)) (json_path s).
Proof.
  intros ctl before ses st rs x can num s O F X P N S E C.
  pose proof (session_state ctl before ses F before (fun _ => []) (nothing_open ctl before O)) as A.
  rewrite P in A. destruct A as (Ok' & A). cbn [app] in A. specialize (A num s S). rewrite E in A.
  destruct (print_ops_ok ctl st x X) as (num' & s' & N' & S' & E'). assert (num' = num) as -> by congruence. assert (s' = s) as -> by congruence.
  unfold print_interrupted. rewrite E'.
  destruct (prefix_state ctl before can st x num s _ 1 Ok' S A ltac:(auto)) as (st' & R & O' & (G1 & T1) & _).
  rewrite R. cbn [fst]. exists [13; 93]. split; [|reflexivity].
  rewrite close_files by exact O'. rewrite (open_path st' num s O' S), G1, T1. reflexivity.
Qed.
Print Assumptions C34_created_file_refuted.

(** ** C35: message numbers and files *)

(** The files of different message numbers are different, and the name tells the number. *)
Theorem C35_distinct : forall num s num' s', zget JSON_SPEC num = Some s -> zget JSON_SPEC num' = Some s' ->
  json_path s = json_path s' -> num = num'.
Proof. exact spec_paths_distinct. Qed.
Print Assumptions C35_distinct.

Theorem C35_file_names : forall num s, zget JSON_SPEC num = Some s ->
  exists head, ustr (json_path s) = head ++ [45] ++ py_int_str num ++ ustr ".json".
Proof.
  assert (F : forallb (fun e => let t := [45] ++ py_int_str (fst e) ++ ustr ".json" in
    let p := ustr (json_path (snd e)) in
    if list_eq_dec Z.eq_dec p (firstn (length p - length t) p ++ t) then true else false) JSON_SPEC = true)
    by (vm_compute; reflexivity).
  intros num s S. rewrite forallb_forall in F. specialize (F _ (dget_In Z.eqb z_eqb_spec _ _ _ S)). cbn [fst snd] in F.
  cbv zeta in F. match type of F with (if list_eq_dec _ _ (?h ++ _) then _ else _) = _ => exists h end.
  destruct (list_eq_dec _ _ _) as [E|]; [exact E|discriminate].
Qed.
Print Assumptions C35_file_names.

(** Printing an object changes at most the file of its own message number, also when it is
    interrupted or fails. *)
Theorem C35_own_file_only : forall ctl before ses st rs x can k num s path,
  jp_open before = [] -> Forall (fun e => object_ok ctl (fst e)) ses -> print_session ctl before ses = (st, rs) ->
  number_of x = Some num -> zget JSON_SPEC num = Some s -> path <> json_path s ->
  sget (jp_files (print_interrupted ctl can st x k)) path = sget (jp_files st) path.
Proof.
  intros ctl before ses st rs x can k num s path O F P N S D.
  pose proof (session_state ctl before ses F before (fun _ => []) (nothing_open ctl before O)) as A.
  rewrite P in A. destruct A as (Ok' & A). specialize (A num s S). cbn [app] in A.
  assert (OP : zget (jp_open st) num = None \/ zget (jp_open st) num = Some (json_path s)).
  { destruct (recorded (printed num ses rs)) as [[c l]|]; destruct A; auto. }
  unfold print_interrupted. destruct (print_ops ctl st x) as [ops|] eqn:E; [|reflexivity].
  assert (I : ops = append_ops st (class_of x) num (json_path s) (match data_string ctl x with Ok (t, _) => [44; 13] ++ t | Err _ => [] end)).
  { unfold print_ops in E. destruct (data_string ctl x) as [[t v]|] eqn:DS; [|discriminate]. cbn [bind] in E.
    assert (v = VInt num) as ->.
    { destruct x as [[b|o]|p]; cbn [data_string number_of] in *.
      - destruct (as_assert _); [|discriminate]. cbn in DS. congruence.
      - destruct (as_assert _); [|discriminate]. cbn in DS. congruence.
      - destruct (is_json_dataclass _); [|discriminate]. destruct (as_assert _); [|discriminate]. cbn [bind] in DS. unfold eph_getattr in DS.
        destruct (sget (po_attrs p) "msgNum") as [w|]; [|discriminate]. cbn in DS. destruct w; try discriminate. congruence. }
    rewrite S in E. congruence. }
  rewrite I. unfold append_ops. clear E I ops A.
  destruct OP as [G|G]; rewrite G; destruct k as [|[|[|k]]]; cbn [firstn do_ops]; try reflexivity.
  all: try (rewrite firstn_nil; cbn [do_ops]).
  all: cbn [do_op]; try rewrite G.
  all: try destruct (can (json_path s)); cbn [fst do_ops do_op jp_open jp_files]; rewrite ?zget_same; cbn [fst jp_open jp_files do_op do_ops];
       rewrite ?zget_same; cbn [fst jp_files]; repeat rewrite sget_other by congruence; try reflexivity.
Qed.
Print Assumptions C35_own_file_only.

(** Concrete runs: an antenna position, a text, observations, the position again; then with
    the creation of one file refused. *)
Definition sample_object (raw : list Z) : rtcm_obj :=
  match answer sample_history (first_frame raw) with Ok (Some o) => o | _ => OPy (new_eph "none") end.
Definition sample_session (refuse : string) : session :=
  map (fun raw => (sample_object raw, fun path => negb (String.eqb path refuse)))
    [sample_1005; sample_1029; sample_1077; sample_1005].
Definition sample_controls (pretty : bool) : json_controls :=
  {| enable_hdr_data := true; enable_aux_data := true; enable_pretty_view := pretty |}.
Lemma sample_decoded raw : In raw [sample_1005; sample_1029; sample_1077] -> decoded false (sample_object raw).
Proof.
  intros I. exists sample_history, (first_frame raw), (frame_payload (first_frame raw)), (frame_crc (first_frame raw)).
  split; [apply C12_nonvacuous|]. split.
  - apply frame_parts; repeat destruct I as [<-|I]; try destruct I; vm_compute; congruence.
  - repeat destruct I as [<-|I]; try destruct I; vm_compute; reflexivity.
Qed.
Definition elements_of (c : option (list Z)) : option nat :=
  match c with Some c => match read_json c with Some (JArr l) => Some (length l) | _ => None end | None => None end.
Example C33_nonvacuous : forall refuse,
  Forall (fun e => decoded false (fst e)) (sample_session refuse) /\
  Forall (fun e => object_ok (sample_controls true) (fst e)) (sample_session refuse).
Proof.
  intros refuse. assert (D : Forall (fun e => decoded false (fst e)) (sample_session refuse)).
  { unfold sample_session. cbn [map]. repeat (apply Forall_cons; [cbn [fst]; apply sample_decoded; cbn; tauto|]). constructor. }
  split; [exact D|]. eapply Forall_impl; [|exact D]. intros e (h & msg & p & c & S & T & A). now apply (decoded_object _ false h msg p c).
Qed.
Example C33_sample_files : forall pretty,
  let '(st, rs) := print_session (sample_controls pretty) json_init (sample_session "none") in
  rs = [Ok tt; Ok tt; Ok tt; Ok tt] /\
  map (fun n => length (printed n (sample_session "none") rs)) [1005; 1029; 1077; 1019] = [2; 1; 1; 0]%nat /\
  map (fun p => elements_of (sget (jp_files (json_close st)) p))
    ["BASE/RefPoint-1005.json"; "BASE/TextStr-1029.json"; "MSM7/GPS-MSM7-1077.json"; "EPH/GPS-EPH-1019.json"] =
  [Some 3; Some 2; Some 2; None]%nat.
Proof. intros [|]; vm_compute; auto. Qed.
Example C33_sample_refused :
  let '(st, rs) := print_session (sample_controls true) json_init (sample_session "BASE/TextStr-1029.json") in
  rs = [Ok tt; Err EAssert; Ok tt; Ok tt] /\
  map (fun p => elements_of (sget (jp_files (json_close st)) p))
    ["BASE/RefPoint-1005.json"; "BASE/TextStr-1029.json"; "MSM7/GPS-MSM7-1077.json"] = [Some 3; None; Some 2]%nat.
Proof. vm_compute. auto. Qed.
(** Interrupting the first and the second position after one, two and three operations. *)
Example C34_nonvacuous :
  let one := fst (print_session (sample_controls false) json_init [(sample_object sample_1005, fun _ => true)]) in
  let after st k := elements_of (sget (jp_files (json_close
     (print_interrupted (sample_controls false) (fun _ => true) st (sample_object sample_1005) k))) "BASE/RefPoint-1005.json") in
  map (after json_init) [0; 1; 2; 3]%nat = [None; None; Some 1; Some 2]%nat /\
  map (after one) [0; 1; 2]%nat = [Some 2; Some 3; Some 3]%nat.
Proof. vm_compute. auto. Qed.
