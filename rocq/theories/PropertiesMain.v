(** * Conversion of files: C38, C39, C42. *)
From Coq Require Import Permutation.
From Verif Require Import PyBase PyDict PyFloat PyVal BitsModel MessageSpec FramerModel FramerSpec FramerProofs PropertiesStream MsmModel MsmSpec
  TestData DecoderModel DecoderSpec DecoderProofs PropertiesDecoder MargoModel MargoSpec MargoProofs MargoFiles PropertiesMargo PropertiesEph
  JsonModel JsonSpec JsonFileSpec JsonFiles JsonDecoded PropertiesJson PrinterModel PrinterSpec PrinterProofs PropertiesPrinter MainModel MainSpec MainProofs.
Local Open Scope string_scope.
Local Open Scope list_scope.
Local Open Scope Z_scope.

(** ** C38: the converter is released exactly once *)

(** Exceptions that arrive during an operation do not exchange the printers of the converter. *)
Definition printers_kept (faults : nat -> option fault) : Prop :=
  forall n e d c w, faults n = Some (During e d) ->
    pt_printers (cv_printer (fst (d (c, w)))) = pt_printers (cv_printer c).

(** Operations added to a run. *)
Definition ext (P : op -> Prop) (faults : nat -> option fault) (s s' : run) : Prop :=
  (exists t, r_trace s' = t ++ r_trace s /\ Forall (fun x => P (fst x)) t) /\
  (printers_kept faults -> pt_printers (cv_printer (r_conv s')) = pt_printers (cv_printer (r_conv s))).
Lemma ext_refl P faults s : ext P faults s s.
Proof. split; [exists []; split; [reflexivity|constructor]|reflexivity]. Qed.
Lemma ext_trans P faults a b c : ext P faults a b -> ext P faults b c -> ext P faults a c.
Proof.
  intros ((t & E & F) & K) ((u & G & H) & K'). split.
  - exists (u ++ t). rewrite G, E, app_assoc. split; [reflexivity|]. now apply Forall_app.
  - intros X. now rewrite (K' X), (K X).
Qed.
Lemma ext_perform {A} (P : op -> Prop) faults o f s : P o ->
  (forall c w, pt_printers (cv_printer (fst (fst (f (c, w))))) = pt_printers (cv_printer c)) ->
  ext P faults s (fst (perform (A := A) faults o f s)).
Proof.
  intros Ho Hf. unfold perform. destruct (faults _) as [[e|e d]|] eqn:FL.
  - split; [|reflexivity]. exists [(o, false)]. split; [reflexivity|]. constructor; [exact Ho|constructor].
  - split; [|intros X; specialize (X _ _ _ (r_conv s) (r_world s) FL); destruct (d _); exact X].
    destruct (d _) as [c w]. exists [(o, true)]. split; [reflexivity|]. constructor; [exact Ho|constructor].
  - specialize (Hf (r_conv s) (r_world s)). split; [|destruct (f _) as [[c w] r]; intros _; exact Hf].
    destruct (f _) as [[c w] r]. exists [(o, true)]. split; [reflexivity|]. constructor; [exact Ho|constructor].
Qed.
Lemma ext_andthen {A B} P faults (x : act A) (f : A -> act B) s :
  (forall s, ext P faults s (fst (x s))) -> (forall a s, ext P faults s (fst (f a s))) -> ext P faults s (fst (andthen x f s)).
Proof.
  intros X F. unfold andthen. specialize (X s). destruct (x s) as [s1 [a|e]]; cbn [fst] in *; [|exact X].
  eapply ext_trans; [exact X|apply F].
Qed.
Lemma ext_silent (P : op -> Prop) faults o s : P o -> ext P faults s (fst (silent faults o s)).
Proof. intros H. apply ext_perform; [exact H|reflexivity]. Qed.

Definition working (o : op) : Prop := o <> ORelease /\ o <> OCloseFile.
Ltac work := split; discriminate.
Lemma ext_messages ord faults : forall ms s, ext working faults s (fst (messages ord faults ms s)).
Proof.
  induction ms as [|m ms IH]; intros s; cbn [messages]; [apply ext_refl|].
  apply ext_andthen; [intros; apply ext_perform; [work|]|].
  { intros c w. unfold cv_decode. destruct (decode _ _). reflexivity. }
  intros [o|] s1; (apply ext_andthen; [|intros _; apply IH]).
  - intros; apply ext_perform; [work|]. intros c w. unfold cv_print. pose proof (top_print_keeps ord (cv_printer c) w o) as H.
    destruct (top_print _ _ _ _) as [[p w'] r]. apply H.
  - intros; apply ext_refl.
Qed.
Lemma ext_chunks ord faults : forall reads size processed s, ext working faults s (fst (chunks ord faults size processed reads s)).
Proof.
  induction reads as [|c reads IH]; intros size processed s; cbn [chunks]; (apply ext_andthen; [intros; apply ext_silent; work|]); intros _ s1.
  - apply ext_refl.
  - destruct c as [|b c]; [apply ext_refl|]. cbv zeta. apply ext_andthen; [intros; apply ext_perform; [work|]|].
    { intros c0 w. unfold cv_parse. destruct (catch_message _ _) as [[f ms]|e]; reflexivity. }
    intros ms s2.
    apply ext_andthen; [intros; apply ext_messages|]. intros _ s3. apply ext_andthen; [intros; apply ext_silent; work|]. intros _ s4.
    apply ext_andthen; [intros; destruct (size =? 0); apply ext_refl|]. intros _ s5.
    apply ext_andthen; [intros; apply ext_silent; work|]. intros _ s6. apply IH.
Qed.
Lemma ext_try ord faults src s : ext working faults s (fst (fst (try_block ord faults src s))).
Proof.
  unfold try_block.
  pose proof (ext_perform working faults OOpen (fun cw => (cw, match src with Some _ => Ok tt | None => Err EOS end)) s ltac:(work) ltac:(reflexivity)) as X.
  destruct (perform _ _ _ _) as [s1 [[]|e]]; [|exact X].
  match goal with |- context[andthen ?x ?f s1] => pose proof (ext_andthen working faults x f s1) as Y; destruct (andthen x f s1) as [s2 r] end.
  cbn [fst] in *. eapply ext_trans; [exact X|]. apply Y.
  - intros; apply ext_silent; work.
  - intros _ s3. apply ext_andthen; [intros; apply ext_silent; work|]. intros _ s4.
    destruct src as [[size reads]|]; [apply ext_chunks|apply ext_refl].
Qed.
Lemma ext_handler faults e s : ext working faults s (fst (handler faults e s)).
Proof.
  assert (L : forall s, ext working faults s (fst (silent faults OLog s))) by (intros; apply ext_silent; work).
  destruct e; cbn [handler]; (apply ext_andthen; [exact L|]); intros _ s1; try apply ext_refl; (apply ext_andthen; [exact L|]); intros _ s2; apply ext_refl.
Qed.

(** What happens before the [finally] block. *)
Definition before_finally ord faults src s : run * res bool * bool :=
  let '(s, r, opened) := try_block ord faults src s in
  let '(s, r) := match r with Ok _ => (s, Ok true) | Err e => handler faults e s end in (s, r, opened).
Lemma ext_before ord faults src s : ext working faults s (fst (fst (before_finally ord faults src s))).
Proof.
  unfold before_finally. pose proof (ext_try ord faults src s) as X. destruct (try_block _ _ _ _) as [[s1 [[]|e]] opened]; [exact X|].
  pose proof (ext_handler faults e s1) as Y. destruct (handler _ _ _) as [s2 r]. cbn [fst] in *. eapply ext_trans; eassumption.
Qed.
Lemma decode_split ord faults src s : decode_rtcm_file ord faults src s =
  let '(s, r, opened) := before_finally ord faults src s in
  match finally_block ord faults opened s with (s, Err e) => (s, Err e) | (s, Ok _) => (s, r) end.
Proof.
  unfold decode_rtcm_file, before_finally. destruct (try_block _ _ _ _) as [[s1 [[]|e]] opened]; [reflexivity|].
  destruct (handler _ _ _) as [s2 r]. reflexivity.
Qed.

Lemma released ord faults src c w s r :
  decode_rtcm_file ord faults src {| r_conv := c; r_world := w; r_trace := [] |} = (s, r) ->
  exists t1 b t2, rev (r_trace s) = t1 ++ (ORelease, b) :: t2 /\
    Forall (fun x => fst x <> ORelease) (t1 ++ t2) /\ Forall (fun x => uses_converter (fst x) = false) t2 /\
    (b = false <-> exists e, faults (length t1) = Some (Before e)) /\
    (faults (length t1) = None -> (forall n e d, (length t1 < n)%nat -> faults n <> Some (During e d)) ->
     (printers_kept faults -> pt_printers (cv_printer (r_conv s)) = pt_printers (cv_printer c)) /\
     exists w', r_world s = fst (cv_release ord (r_conv s) w')).
Proof.
  intros D. rewrite decode_split in D.
  set (s0 := {| r_conv := c; r_world := w; r_trace := [] |}) in *.
  pose proof (ext_before ord faults src s0) as ((t & E & W) & PK). destruct (before_finally ord faults src s0) as [[s1 r1] opened]. cbn [fst] in *.
  cbn [r_trace r_conv s0] in E, PK. rewrite app_nil_r in E.
  assert (W1 : Forall (fun x : op * bool => fst x <> ORelease) (rev t)).
  { apply Forall_rev. eapply Forall_impl; [|exact W]. intros x Hx. apply Hx. }
  unfold finally_block in D.
  set (rel := perform faults ORelease (fun '(c, w) => let '(w, r) := cv_release ord c w in (c, w, r))) in *.
  assert (R : exists b, r_trace (fst (rel s1)) = (ORelease, b) :: t /\ (b = false <-> exists e, faults (length t) = Some (Before e)) /\
    (faults (length t) = None -> r_conv (fst (rel s1)) = r_conv s1 /\ r_world (fst (rel s1)) = fst (cv_release ord (r_conv (fst (rel s1))) (r_world s1)))).
  { unfold rel, perform. rewrite E. destruct (faults (length t)) as [[e|e d]|] eqn:FL.
    - exists false. cbn. split; [reflexivity|]. split; [split; [eauto|reflexivity]|discriminate].
    - destruct (d _) as [c' w']. exists true. cbn. split; [reflexivity|]. split; [split; [discriminate|intros (e' & X); discriminate]|discriminate].
    - destruct (cv_release ord (r_conv s1) (r_world s1)) as [w' rr] eqn:CR. exists true. cbn. split; [reflexivity|].
      split; [split; [discriminate|intros (e' & X); discriminate]|]. intros _. now rewrite CR. }
  destruct R as (b & RT & RB & RW). unfold andthen in D.
  assert (FIN : forall s', s = s' -> (r_conv s' = r_conv (fst (rel s1)) /\ r_world s' = r_world (fst (rel s1))) \/
      (exists n e d, (length t < n)%nat /\ faults n = Some (During e d)) ->
    (faults (length t) = None -> (forall n e d, (length t < n)%nat -> faults n <> Some (During e d)) ->
     (printers_kept faults -> pt_printers (cv_printer (r_conv s)) = pt_printers (cv_printer c)) /\
     exists w', r_world s = fst (cv_release ord (r_conv s) w'))).
  { intros s' -> K N ND. destruct K as [(K1 & K2)|(n & e & d & L & X)]; [|destruct (ND n e d L X)].
    destruct (RW N) as (R1 & R2). split; [intros KP; rewrite K1, R1; exact (PK KP)|]. exists (r_world s1). rewrite K1, K2. exact R2. }
  clear RW PK.
  assert (L : forall o s3, exists b', r_trace (fst (silent faults o s3)) = (o, b') :: r_trace s3 /\
     ((r_conv (fst (silent faults o s3)) = r_conv s3 /\ r_world (fst (silent faults o s3)) = r_world s3) \/
      exists e d, faults (length (r_trace s3)) = Some (During e d))).
  { intros o s3. unfold silent, perform. destruct (faults (length (r_trace s3))) as [[e|e d]|] eqn:FL.
    - exists false. cbn. auto.
    - destruct (d _). exists true. cbn. split; [reflexivity|]. right. eauto.
    - exists true. cbn. auto. }
  exists (rev t), b. rewrite rev_length. destruct (rel s1) as [s2 [[]|e]] eqn:Q; cbn [fst] in *.
  2:{ assert (s = s2) as -> by congruence. exists []. rewrite RT. cbn [rev]. split; [reflexivity|]. rewrite app_nil_r.
      split; [exact W1|]. split; [constructor|]. split; [exact RB|]. apply (FIN s2 eq_refl). auto. }
  destruct (L OLog s2) as (b1 & T1 & K1).
  assert (K1' : (r_conv (fst (silent faults OLog s2)) = r_conv s2 /\ r_world (fst (silent faults OLog s2)) = r_world s2) \/
     (exists n e d, (length t < n)%nat /\ faults n = Some (During e d))).
  { destruct K1 as [K1|(e' & d & X)]; [now left|]. right. exists (length (r_trace s2)), e', d. split; [rewrite RT; cbn; lia|exact X]. }
  clear K1. destruct (silent faults OLog s2) as [s3 [[]|e]] eqn:Q1; cbn [fst] in *.
  2:{ assert (s = s3) as -> by congruence. exists [(OLog, b1)]. rewrite T1, RT. cbn [rev]. rewrite <- app_assoc. split; [reflexivity|].
      split; [apply Forall_app; split; [exact W1|constructor; [discriminate|constructor]]|].
      split; [constructor; [reflexivity|constructor]|]. split; [exact RB|]. now apply (FIN s3 eq_refl). }
  destruct opened.
  - destruct (L OCloseFile s3) as (b2 & T2 & K2).
    assert (K2' : (r_conv (fst (silent faults OCloseFile s3)) = r_conv s2 /\ r_world (fst (silent faults OCloseFile s3)) = r_world s2) \/
      (exists n e d, (length t < n)%nat /\ faults n = Some (During e d))).
    { destruct K1' as [(K1 & K1')|K1]; [|now right]. destruct K2 as [(K2 & K2')|(e' & d & X)]; [left; split; congruence|].
      right. exists (length (r_trace s3)), e', d. split; [rewrite T1, RT; cbn; lia|exact X]. }
    clear K2. destruct (silent faults OCloseFile s3) as [s4 r4] eqn:Q2; cbn [fst] in *.
    assert (s = s4) as -> by (destruct r4; congruence). exists [(OLog, b1); (OCloseFile, b2)]. rewrite T2, T1, RT. cbn [rev]. rewrite <- !app_assoc. split; [reflexivity|].
    split; [apply Forall_app; split; [exact W1|constructor; [discriminate|constructor; [discriminate|constructor]]]|].
    split; [constructor; [reflexivity|constructor; [reflexivity|constructor]]|]. split; [exact RB|]. now apply (FIN s4 eq_refl).
  - unfold ret in D. assert (s = s3) as -> by congruence. exists [(OLog, b1)]. rewrite T1, RT. cbn [rev]. rewrite <- app_assoc. split; [reflexivity|].
    split; [apply Forall_app; split; [exact W1|constructor; [discriminate|constructor]]|].
    split; [constructor; [reflexivity|constructor]|]. split; [exact RB|]. now apply (FIN s3 eq_refl).
Qed.

(** Whatever exceptions arrive at whatever operations, [release] is reached exactly once, after
    every other use of the converter; and it is started, unless an exception arrives at the very
    moment it is about to be called. *)
Theorem C38_released_once : forall ord faults src c w s r,
  decode_rtcm_file ord faults src {| r_conv := c; r_world := w; r_trace := [] |} = (s, r) ->
  exists t1 b t2, rev (r_trace s) = t1 ++ (ORelease, b) :: t2 /\
    Forall (fun x => fst x <> ORelease) (t1 ++ t2) /\ Forall (fun x => uses_converter (fst x) = false) t2 /\
    (b = false <-> exists e, faults (length t1) = Some (Before e)).
Proof.
  intros ord faults src c w s r D. destruct (released ord faults src c w s r D) as (t1 & b & t2 & A & B & C & E & _). exists t1, b, t2. auto.
Qed.
Print Assumptions C38_released_once.

(** Hence, for a converter of the factory, whatever happens before the release and however the
    exception damaged counters, buffers and files: if release itself is not disturbed, no output
    file remains open. *)
Theorem C38_files_closed : forall mode env ctl c ord faults src w s r,
  factory mode true env ctl = Ok (Some c) -> walk ord -> printers_kept faults ->
  decode_rtcm_file ord faults src {| r_conv := c; r_world := w; r_trace := [] |} = (s, r) ->
  (forall t1 b t2, rev (r_trace s) = t1 ++ (ORelease, b) :: t2 -> forall n, (length t1 <= n)%nat -> faults n = None) ->
  (mode = "MARGO" \/ mode = "JARGO" -> mg_open (w_margo (r_world s)) = []) /\
  (mode <> "MARGO" -> jp_open (w_json (r_world s)) = []).
Proof.
  intros mode env ctl c ord faults src w s r F O PK D U.
  destruct (released ord faults src c w s r D) as (t1 & b & t2 & A & _ & _ & _ & X). specialize (U t1 b t2 A).
  destruct X as (X & w' & Y); [apply U; lia|intros n e d L; rewrite U by lia; discriminate|]. specialize (X PK).
  rewrite Y. clear Y. unfold cv_release, top_close. rewrite X.
  destruct (factory_inv _ _ _ _ _ F) as (_ & M & _ & _ & PR & _).
  assert (P1 : forall q, ord [q] = [q]) by (intros q; apply Permutation_length_1_inv; apply O).
  destruct M as [<-|[<-|[<-|[<-|[]]]]]; unfold printers_of in PR.
  - destruct (pt_printers (cv_printer c)) as [|q [|q' l]]; try discriminate. rewrite P1. cbn in PR. injection PR as ->. cbn. split; [reflexivity|congruence].
  - destruct (pt_printers (cv_printer c)) as [|q [|q' l]]; try discriminate. rewrite P1. cbn in PR. injection PR as ->. cbn. split; [intuition discriminate|reflexivity].
  - destruct (pt_printers (cv_printer c)) as [|q [|q' l]]; try discriminate. rewrite P1. cbn in PR. injection PR as ->. cbn. split; [intuition discriminate|reflexivity].
  - destruct (pt_printers (cv_printer c)) as [|q [|q' [|q'' l]]]; try discriminate. cbn in PR. injection PR as -> ->.
    match goal with |- context[ord [?a; ?b]] => pose proof (O [a; b]) as PE; apply Permutation_length_2_inv in PE; destruct PE as [-> | ->] end; cbn; split; reflexivity.
Qed.
Print Assumptions C38_files_closed.

(** ** C38: what the output files contain *)

Lemma same_family_spec a b : same_family a b = true <-> a = b.
Proof. destruct a, b; cbn; split; congruence. Qed.
Lemma not_delivered fam mode env : forall objs k, (forall o, In o objs -> family_of mode o <> fam) -> delivered_to fam mode env k objs = [].
Proof.
  induction objs as [|o objs IH]; intros k H; cbn [delivered_to]; [reflexivity|].
  rewrite IH by (intros x I; apply H; now right). pose proof (H o (or_introl eq_refl)) as N. rewrite <- same_family_spec in N.
  destruct (same_family _ _); [tauto|reflexivity].
Qed.

(** Everything about an undisturbed conversion. *)
Lemma conversion mode env ctl c ord size reads content segs rest :
  factory mode true env ctl = Ok (Some c) -> walk ord -> controls_ok (box_margo ctl) ->
  bytes_ok content -> reads_ok reads content -> (content <> [] -> size <> 0) -> scans content segs rest ->
  let objs := objects mode (frames_of segs) in
  exists s, decode_rtcm_file ord no_faults (Some (size, reads)) (started c) = (s, Ok true) /\
    (exists st rs, print_session (box_json ctl) json_init (delivered_to JsonFiles mode env 0 objs) = (st, rs) /\
      w_json (r_world s) = json_close st /\
      get_statistics (r_conv s) =
        (let h := map Register (decoders_of mode) ++ map Decode (frames_of segs) in
         {| decoding_attempts := dec_attempts (after h); parsing_errors := interrupted_messages segs;
            decoding_errors := dec_errors (after h);
            printing_attempts := zlen objs; printing_errors := refused rs |})) /\
    (exists hist st, Forall2 is_event hist (delivered_to ObsFiles mode env 0 objs) /\ Forall event_ok hist /\
      print_all (box_margo ctl) margo_init hist = (st, Ok tt) /\ w_margo (r_world s) = margo_close st).
Proof.
  intros F O C B (R & N) Z S objs.
  assert (BR : Forall bytes_ok reads).
  { apply Forall_forall. intros x I. apply Forall_forall. intros b Ib. unfold bytes_ok in B. rewrite Forall_forall in B. apply B. rewrite <- R.
    apply in_concat. eauto. }
  destruct (C11_parse_errors_exact reads BR) as (fr & segs' & rest' & FE & S' & PE). rewrite R in S'.
  destruct (scans_functional _ _ _ S _ _ S') as (<- & <-). clear S'.
  pose proof (scans_frames_valid _ _ _ S) as V.
  destruct (run_state mode env ctl c ord (frames_of segs) F O C V) as (p & w & P & PP & WC & PA & (rs & J & JE) & (hist & HE & HO & HP)).
  fold objs in WC, PA, J, HE.
  destruct (factory_inv _ _ _ _ _ F) as (_ & M & FI & _).
  assert (CL : top_close ord p w = ({| w_margo := margo_close (w_margo w); w_json := json_close (w_json w); w_calls := w_calls w |}, Ok tt)).
  { apply (close_printers mode env ctl c ord p w F O PP); auto.
    - intros ->. assert (E : delivered_to JsonFiles "MARGO" env 0 objs = []).
      { apply not_delivered. intros o I. destruct (objects_from _ _ _ V I) as (f & Vf & A).
        pose proof (answer_class _ _ _ _ _ _ F (valid_frame_bytes _ Vf) A) as X. cbn in X. unfold family_of. rewrite X. discriminate. }
      rewrite E in J. cbn in J. congruence.
    - intros N1 N2. assert (E : delivered_to ObsFiles mode env 0 objs = []).
      { apply not_delivered. intros o I. unfold family_of.
        destruct (String.eqb_spec mode "MARGO"); [contradiction|]. destruct (String.eqb_spec mode "JARGO"); [contradiction|].
        rewrite andb_false_r. discriminate. }
      rewrite E in HE. inversion HE; subst. cbn in HP. congruence. }
  assert (FE' : feed (cv_framer (r_conv (started c))) reads = Ok (fr, frames_of segs)) by (cbn [started r_conv]; rewrite FI; exact FE).
  assert (ZR : reads <> [] -> size <> 0).
  { intros NE. apply Z. intros ->. apply NE. destruct reads as [|x reads]; [reflexivity|]. cbn in R. apply app_eq_nil in R. destruct R as [-> _].
    exfalso. apply N. now left. }
  destruct (decode_file_ok ord reads size (started c) fr (frames_of segs) _ p w _ ZR N FE' P CL) as (s & D & RC & RW).
  exists s. split; [exact D|]. rewrite RW, RC. cbn [w_json w_margo]. split.
  - exists (w_json w), rs. split; [exact J|]. split; [reflexivity|]. unfold get_statistics. cbn [cv_decoder cv_framer cv_printer].
    cbv zeta. rewrite PE, PA, JE. reflexivity.
  - exists hist, (w_margo w). auto.
Qed.

(** The products are those obtained by framing the whole content, decoding each frame and
    printing each object, in order, and closing; the function returns True. *)
Theorem C38_products : forall mode env ctl c ord size reads content segs rest,
  factory mode true env ctl = Ok (Some c) -> walk ord -> controls_ok (box_margo ctl) ->
  bytes_ok content -> reads_ok reads content -> (content <> [] -> size <> 0) -> scans content segs rest ->
  let objs := objects mode (frames_of segs) in
  exists s, decode_rtcm_file ord no_faults (Some (size, reads)) (started c) = (s, Ok true) /\
    w_json (r_world s) = json_close (fst (print_session (box_json ctl) json_init (delivered_to JsonFiles mode env 0 objs))) /\
    exists hist, Forall2 is_event hist (delivered_to ObsFiles mode env 0 objs) /\
      w_margo (r_world s) = margo_close (fst (print_all (box_margo ctl) margo_init hist)).
Proof.
  intros mode env ctl c ord size reads content segs rest F O C B R Z S objs.
  destruct (conversion mode env ctl c ord size reads content segs rest F O C B R Z S) as (s & D & (st & rs & J & WJ & _) & (hist & m & HE & _ & HP & WM)).
  exists s. split; [exact D|]. fold objs in J, HE. rewrite J. split; [exact WJ|]. exists hist. split; [exact HE|]. now rewrite HP.
Qed.
Print Assumptions C38_products.

(** When the files can be created, nothing is refused and every object is in the file of its
    number. *)
Lemma session_all ctl ses : Forall (fun e => object_ok ctl (fst e) /\ forall p, snd e p = true) ses ->
  Forall (fun r => r = Ok tt) (snd (print_session ctl json_init ses)) /\
  length (snd (print_session ctl json_init ses)) = length ses.
Proof.
  induction ses as [|[x can] ses IH] using rev_ind; intros F; [split; [constructor|reflexivity]|].
  apply Forall_app in F. destruct F as [F Fx]. destruct (IH F) as (A & L). clear IH. inversion Fx as [|? ? (OX & CX) _]; subst. cbn [fst snd] in *.
  rewrite print_session_app. destruct (print_session ctl json_init ses) as [st rs] eqn:P. cbn [print_session snd] in *.
  destruct (json_print ctl can st x) as [st' r] eqn:J. cbn [snd].
  assert (F' : Forall (fun e => object_ok ctl (fst e)) ses) by (eapply Forall_impl; [|exact F]; intros e (X & _); exact X).
  destruct (C33_refused_only ctl json_init ses st rs x can st' r eq_refl F' P OX J) as (num & s & _ & _ & [->|(_ & C & _)]); [|rewrite CX in C; discriminate].
  split; [apply Forall_app; split; [exact A|constructor; [reflexivity|constructor]]|]. rewrite !app_length, L. reflexivity.
Qed.
Lemma printed_all num : forall ses rs, Forall (fun r => r = Ok tt) rs -> length rs = length ses ->
  printed num ses rs = filter (fun o => match number_of o with Some n => n =? num | None => false end) (map fst ses).
Proof.
  induction ses as [|[x can] ses IH]; intros [|r rs] A L; try discriminate L; [reflexivity|].
  inversion A as [|? ? -> A']; subst. injection L as L. cbn [printed map fst filter]. rewrite (IH rs A' L).
  destruct (number_of x) as [n|]; [|reflexivity]. destruct (n =? num); reflexivity.
Qed.
Lemma delivered_objects fam mode env : forall objs k,
  map fst (delivered_to fam mode env k objs) = filter (fun o => same_family (family_of mode o) fam) objs.
Proof.
  induction objs as [|o objs IH]; intros k; cbn [delivered_to filter]; [reflexivity|]. rewrite map_app, IH.
  destruct (same_family _ _); reflexivity.
Qed.
Lemma filter_filter {A} (f g : A -> bool) l : filter f (filter g l) = filter (fun x => g x && f x) l.
Proof.
  induction l as [|x l IH]; [reflexivity|]. cbn [filter]. destruct (g x); cbn [filter andb]; [destruct (f x); now rewrite IH|exact IH].
Qed.
Lemma all_printed mode env ctl frames num : Forall valid_frame frames -> (forall n p, env n p = true) ->
  let '(st, rs) := print_session ctl json_init (delivered_to JsonFiles mode env 0 (objects mode frames)) in
  refused rs = 0 /\ printed num (delivered_to JsonFiles mode env 0 (objects mode frames)) rs = numbered mode num (objects mode frames).
Proof.
  intros V EN. pose proof (delivered_ok JsonFiles ctl mode env frames 0 V) as D. set (ses := delivered_to JsonFiles mode env 0 (objects mode frames)) in *.
  destruct (session_all ctl ses) as (A & L).
  { apply Forall_forall. intros d I. rewrite Forall_forall in D. split; [auto|].
    assert (X : forall objs k, In d (delivered_to JsonFiles mode env k objs) -> exists n, snd d = env n).
    { clear. induction objs as [|o objs IH]; intros k I; cbn [delivered_to] in I; [destruct I|]. apply in_app_or in I.
      destruct I as [I|I]; [|exact (IH _ I)]. destruct (same_family _ _); [|destruct I]. destruct I as [<-|[]]. exists k. reflexivity. }
    destruct (X _ _ I) as (n & ->). apply EN. }
  destruct (print_session ctl json_init ses) as [st rs]. cbn [snd] in *. split.
  - unfold refused. clear - A. induction A as [|r rs -> A IH]; [reflexivity|exact IH].
  - rewrite (printed_all num ses rs A L). unfold ses. rewrite delivered_objects, filter_filter. reflexivity.
Qed.

(** JSON products: for every message number, the file holds the array of the objects of that
    number that are in the content, in order; there is no file if there are none, and there are
    no other files. *)
Theorem C38_json_files : forall mode env ctl c ord size reads content segs rest,
  factory mode true env ctl = Ok (Some c) -> walk ord -> controls_ok (box_margo ctl) ->
  bytes_ok content -> reads_ok reads content -> (content <> [] -> size <> 0) -> scans content segs rest ->
  (forall n p, env n p = true) ->
  let objs := objects mode (frames_of segs) in
  exists s, decode_rtcm_file ord no_faults (Some (size, reads)) (started c) = (s, Ok true) /\
    (forall num e, zget JSON_SPEC num = Some e ->
       holds (box_json ctl) json_init (w_json (r_world s)) (json_path e) (numbered mode num objs)) /\
    (forall path, (forall num e, zget JSON_SPEC num = Some e -> json_path e <> path) ->
       sget (jp_files (w_json (r_world s))) path = None).
Proof.
  intros mode env ctl c ord size reads content segs rest F O C B R Z S EN objs.
  destruct (conversion mode env ctl c ord size reads content segs rest F O C B R Z S) as (s & D & (st & rs & J & WJ & _) & _).
  exists s. split; [exact D|]. rewrite WJ. pose proof (scans_frames_valid _ _ _ S) as V. split.
  - intros num e E. pose proof (all_printed mode env (box_json ctl) (frames_of segs) num V EN) as A. rewrite J in A. destruct A as (_ & A).
    unfold objs. rewrite <- A. apply (C33_files (box_json ctl) json_init _ st rs eq_refl (delivered_ok _ _ _ _ _ _ V) J num e E).
  - intros path H. exact (C33_other_files (box_json ctl) json_init _ st rs path eq_refl J H).
Qed.
Print Assumptions C38_json_files.

(** Observation products: the files are those of C32 for the observations that are in the
    content, in order. *)
Theorem C38_obs_files : forall mode env ctl c ord size reads content segs rest,
  factory mode true env ctl = Ok (Some c) -> walk ord -> controls_ok (box_margo ctl) ->
  bytes_ok content -> reads_ok reads content -> (content <> [] -> size <> 0) -> scans content segs rest ->
  (forall n p, env n p = true) ->
  let objs := objects mode (frames_of segs) in
  exists s hist, decode_rtcm_file ord no_faults (Some (size, reads)) (started c) = (s, Ok true) /\
    history_of (observations mode objs) hist /\
    let files := mg_files (w_margo (r_world s)) in
    (forall g p sgn t, known g sgn ->
       match filter (goes_here (box_margo ctl) g p sgn t) hist with
       | [] => sget files (obs_path g p sgn t) = None
       | _ => exists content, sget files (obs_path g p sgn t) = Some content /\ file_of (box_margo ctl) g p sgn t hist content
       end) /\
    (forall path, sget files path <> None -> exists g p sgn t, known g sgn /\ path = obs_path g p sgn t).
Proof.
  intros mode env ctl c ord size reads content segs rest F O C B R Z S EN objs.
  destruct (conversion mode env ctl c ord size reads content segs rest F O C B R Z S) as (s & D & _ & (hist & st & HE & HO & HP & WM)).
  assert (CA : forall e, In e hist -> forall n, pe_can_create e n = true).
  { clear - HE EN. generalize dependent 0%nat. induction (objects mode (frames_of segs)) as [|o l IH] in hist |- *; intros k HE e I n; cbn [delivered_to] in HE.
    - inversion HE; subst. destruct I.
    - destruct (same_family _ _); cbn [app] in HE; [|eapply IH; eauto]. inversion HE as [|e0 d h l0 (_ & X) HE']; subst. cbn [snd] in X.
      destruct I as [<-|I]; [rewrite X; apply EN|eapply IH; eauto]. }
  exists s, hist. split; [exact D|]. split; [split|].
  { unfold observations. rewrite <- (delivered_objects ObsFiles mode env objs 0). clear - HE. fold objs in HE. induction HE as [|e d hist l (X & _) HE IH]; [reflexivity|].
    cbn [map]. now rewrite X, IH. }
  { rewrite Forall_forall in HO |- *. intros e I. split; [exact (HO e I)|exact (CA e I)]. }
  cbv zeta. rewrite WM. destruct (C32_files (box_margo ctl) hist C HO) as (st' & P' & A1 & A2).
  assert (st' = st) as -> by congruence. split; [|exact A2]. intros g p sgn t K. specialize (A1 g p sgn t K).
  rewrite (C32_all_created (box_margo ctl) g p sgn t hist (fun e I => CA e I _)) in A1. exact A1.
Qed.
Print Assumptions C38_obs_files.

(** The counts a conversion ends with. *)
Theorem C38_statistics : forall mode env ctl c ord size reads content segs rest,
  factory mode true env ctl = Ok (Some c) -> walk ord -> controls_ok (box_margo ctl) ->
  bytes_ok content -> reads_ok reads content -> (content <> [] -> size <> 0) -> scans content segs rest ->
  let objs := objects mode (frames_of segs) in
  exists s, decode_rtcm_file ord no_faults (Some (size, reads)) (started c) = (s, Ok true) /\
    let st := get_statistics (r_conv s) in
    parsing_errors st = interrupted_messages segs /\
    tally (map Register (decoders_of mode) ++ map Decode (frames_of segs)) (decoding_attempts st) (decoding_errors st) /\
    printing_attempts st = zlen objs /\
    printing_errors st = refused (snd (print_session (box_json ctl) json_init (delivered_to JsonFiles mode env 0 objs))) /\
    ((forall n p, env n p = true) -> printing_errors st = 0).
Proof.
  intros mode env ctl c ord size reads content segs rest F O C B R Z S objs.
  destruct (conversion mode env ctl c ord size reads content segs rest F O C B R Z S) as (s & D & (st & rs & J & _ & ST) & _).
  exists s. split; [exact D|]. cbv zeta. rewrite ST. cbn [parsing_errors decoding_attempts decoding_errors printing_attempts printing_errors].
  pose proof (scans_frames_valid _ _ _ S) as V.
  split; [reflexivity|]. split.
  { apply C12_statistics. intros m I. apply in_app_or in I. destruct I as [I|I].
    - apply in_map_iff in I. destruct I as (x & E & _). discriminate.
    - apply in_map_iff in I. destruct I as (x & E & I). injection E as ->. rewrite Forall_forall in V. apply valid_frame_bytes. auto. }
  split; [reflexivity|]. fold objs in J. split; [now rewrite J|]. intros EN.
  pose proof (all_printed mode env (box_json ctl) (frames_of segs) 0 V EN) as A. fold objs in A. rewrite J in A. apply A.
Qed.
Print Assumptions C38_statistics.

(** The read size does not matter: neither for the files, nor for the counts, nor for the
    answer. *)
Lemma print_all_ext ctl l : forall a b st, Forall2 is_event a l -> Forall2 is_event b l -> print_all ctl st a = print_all ctl st b.
Proof.
  induction l as [|d l IH]; intros a b st A B; inversion A as [|ea ? ra ? (A1 & A2) A3]; inversion B as [|eb ? rb ? (B1 & B2) B3]; subst; [reflexivity|].
  cbn [print_all]. rewrite A2, B2, <- A1, <- B1. destruct (margo_print _ _ _ _) as [st1 [[]|e]]; [now apply IH|reflexivity].
Qed.
Theorem C38_read_size : forall mode env ctl c ord ord' size size' reads reads' content,
  factory mode true env ctl = Ok (Some c) -> walk ord -> walk ord' -> controls_ok (box_margo ctl) ->
  bytes_ok content -> reads_ok reads content -> reads_ok reads' content -> (content <> [] -> size <> 0 /\ size' <> 0) ->
  let '(s, r) := decode_rtcm_file ord no_faults (Some (size, reads)) (started c) in
  let '(s', r') := decode_rtcm_file ord' no_faults (Some (size', reads')) (started c) in
  r = r' /\ output_files (r_world s) = output_files (r_world s') /\ get_statistics (r_conv s) = get_statistics (r_conv s').
Proof.
  intros mode env ctl c ord ord' size size' reads reads' content F O O' C B R R' Z.
  assert (B1 : Forall bytes_ok [content]) by (constructor; [exact B|constructor]).
  destruct (C06_framing_reference [content] B1) as (_ & segs & rest & _ & S & _). cbn [concat] in S. rewrite app_nil_r in S.
  destruct (conversion mode env ctl c ord size reads content segs rest F O C B R (fun H => proj1 (Z H)) S) as (s & D & (st & rs & J & WJ & ST) & (hist & m & HE & _ & HP & WM)).
  destruct (conversion mode env ctl c ord' size' reads' content segs rest F O' C B R' (fun H => proj2 (Z H)) S) as (s' & D' & (st' & rs' & J' & WJ' & ST') & (hist' & m' & HE' & _ & HP' & WM')).
  rewrite D, D'. split; [reflexivity|]. assert (st' = st /\ rs' = rs) as (-> & ->) by (split; congruence).
  rewrite (print_all_ext _ _ _ _ _ HE' HE) in HP'. assert (m' = m) as -> by congruence. split; [|congruence].
  unfold output_files. rewrite WJ, WJ', WM, WM'. reflexivity.
Qed.
Print Assumptions C38_read_size.

(** The reads of a regular file are its content, in non-empty pieces. *)
Lemma reads_of_ok n : (0 < n)%nat -> forall fuel content, (length content <= fuel)%nat -> reads_ok (reads_of fuel n content) content.
Proof.
  intros Hn. induction fuel as [|k IH]; intros content L.
  - destruct content; [|cbn in L; lia]. split; [reflexivity|tauto].
  - destruct content as [|b content]; [split; [reflexivity|tauto]|]. cbn [reads_of].
    destruct (IH (skipn n (b :: content))) as (E & N).
    { rewrite skipn_length. cbn [length] in *. lia. }
    split; [cbn [concat]; rewrite E; apply firstn_skipn|]. intros [X|X]; [|exact (N X)]. destruct n; [lia|discriminate X].
Qed.
Lemma regular_reads content : reads_ok (reads_of (length content) FILE_CHUNCK_LEN content) content.
Proof. apply reads_of_ok; [unfold FILE_CHUNCK_LEN; lia|lia]. Qed.

(** An interruption that arrives exactly when [release] is about to be called prevents it. *)
Definition interrupt_at (k : nat) (n : nat) : option fault := if Nat.eqb n k then Some (Before EKeyboard) else None.
Definition sample_conv (mode : string) : converter world :=
  match factory mode true sample_os sample_box with Ok (Some c) => c | _ => converter_init end.
Theorem C38_interrupted_release_refuted : exists faults s r,
  decode_rtcm_file (fun l => l) faults (regular_file []) (started (sample_conv "JSON")) = (s, r) /\
  r = Err EKeyboard /\ In (ORelease, false) (r_trace s) /\ ~ In (ORelease, true) (r_trace s).
Proof.
  exists (interrupt_at 4).
  assert (X : let '(s, r) := decode_rtcm_file (fun l => l) (interrupt_at 4) (regular_file []) (started (sample_conv "JSON")) in
    (r, r_trace s) = (Err EKeyboard, [(ORelease, false); (ORead, true); (OSize, true); (OLog, true); (OOpen, true)])) by (vm_compute; reflexivity).
  destruct (decode_rtcm_file _ _ _ _) as [s r]. exists s, r. split; [reflexivity|].
  assert (r = Err EKeyboard) as -> by congruence.
  assert (T : r_trace s = [(ORelease, false); (ORead, true); (OSize, true); (OLog, true); (OOpen, true)]) by congruence.
  rewrite T. split; [reflexivity|]. cbn. split; [auto|]. intuition discriminate.
Qed.
Print Assumptions C38_interrupted_release_refuted.

(** A file with two messages and junk, read in two ways; and interrupted during printing. *)
Definition sample_content : list Z := sample_1005 ++ [1; 2; 3] ++ sample_1077.
Definition run_sample (mode : string) (faults : nat -> option fault) (src : source) : list (string * list Z) * statistics * res bool * list (op * bool) :=
  let '(s, r) := decode_rtcm_file (fun l => l) faults src (started (sample_conv mode)) in
  (output_files (r_world s), get_statistics (r_conv s), r, rev (r_trace s)).
Example C38_nonvacuous :
  controls_ok (box_margo sample_box) /\ bytes_okb sample_content = true /\
  (exists c, factory "JARGO" true sample_os sample_box = Ok (Some c)) /\
  map (fun x => (fst x, length (snd x))) (fst (fst (fst (run_sample "JARGO" no_faults (regular_file sample_content))))) =
    map (fun x => (fst x, length (snd x))) (fst (fst (fst (run_sample "JARGO" no_faults (Some (7, map (fun b => [b]) sample_content)))))) /\
  (5 < length (fst (fst (fst (run_sample "JARGO" no_faults (regular_file sample_content))))))%nat /\
  snd (fst (fst (run_sample "JARGO" no_faults (regular_file sample_content)))) =
    {| decoding_attempts := 2; parsing_errors := 1; decoding_errors := 0; printing_attempts := 2; printing_errors := 0 |} /\
  (let '(_, _, r, t) := run_sample "JARGO" (interrupt_at 6) (regular_file sample_content) in
   r = Ok false /\ skipn 5 t = [(ODecode, true); (OPrint, false); (OLog, true); (ORelease, true); (OLog, true); (OCloseFile, true)]).
Proof.
  split; [exact default_controls_ok|]. split; [vm_compute; reflexivity|]. split; [eexists; reflexivity|].
  split; [vm_compute; reflexivity|]. split; [vm_compute; lia|]. split; [vm_compute; reflexivity|]. vm_compute. split; reflexivity.
Qed.

(** ** C39: the closing message *)

Lemma factory_true mode env ctl : In mode modes -> exists c, factory mode true env ctl = Ok (Some c).
Proof. apply factory_exists. Qed.

(** What is true: "Finished without errors." is given exactly when there were neither decoding
    nor printing errors.  Missing: parsing errors. *)
Theorem C39_partial : forall ord mode ctl env f src content segs rest f' status,
  In mode modes -> walk ord -> controls_ok (box_margo ctl) ->
  inside (work_folder src mode) src = false -> f src = Some content -> bytes_ok content -> scans content segs rest ->
  convert_file ord mode ctl env f src = (f', Some status) ->
  let objs := objects mode (frames_of segs) in
  exists a e, tally (map Register (decoders_of mode) ++ map Decode (frames_of segs)) a e /\
    let p := refused (snd (print_session (box_json ctl) json_init (delivered_to JsonFiles mode (env src) 0 objs))) in
    (status = WithoutErrors <-> e = 0 /\ p = 0) /\ (status = WithErrors <-> e <> 0 \/ p <> 0).
Proof.
  intros ord mode ctl env f src content segs rest f' status M O C NI FS B S CF objs.
  unfold convert_file in CF. destruct (f (work_folder src mode)); [discriminate|].
  destruct (factory_exists mode (env src) ctl M) as (c & F). rewrite F in CF.
  unfold rmtree in CF. rewrite NI, FS in CF. unfold regular_file in CF.
  destruct (C38_statistics mode (env src) ctl c ord (zlen content) _ content segs rest F O C B (regular_reads content)) as (s & D & _ & T & _ & PE & _); [|exact S|].
  { intros NE. unfold zlen. destruct content; [congruence|]. cbn [length]. lia. }
  rewrite D in CF. fold objs in PE. eexists. eexists. split; [exact T|]. cbv zeta. rewrite <- PE.
  assert (ST : status = closing true (get_statistics (r_conv s))) by congruence. rewrite ST. unfold closing, truth.
  destruct (Z.eqb_spec (printing_errors (get_statistics (r_conv s))) 0) as [P0|P0], (Z.eqb_spec (decoding_errors (get_statistics (r_conv s))) 0) as [D0|D0]; cbn [negb orb];
    split; split; intros X; try discriminate X; try reflexivity; try tauto; intuition lia.
Qed.
Print Assumptions C39_partial.

(** What the claim asks for besides: false.  A file in which junk separates two messages is
    counted as one parsing error and reported as converted without errors. *)
Definition one_file (src : path) (content : list Z) : fs := fun p => if path_eqb p src then Some content else None.
Theorem C39_parsing_errors_refuted : exists ord mode ctl env f src content,
  walk ord /\ f src = Some content /\
  snd (convert_file ord mode ctl env f src) = Some WithoutErrors /\
  exists segs rest, scans content segs rest /\ interrupted_messages segs = 1.
Proof.
  exists (fun l => l), "JARGO", sample_box, (fun _ => sample_os), (one_file ["a.rtcm3"] sample_content), ["a.rtcm3"], sample_content.
  split; [intros l; apply Permutation_refl|]. split; [reflexivity|]. split; [vm_compute; reflexivity|].
  assert (B : Forall bytes_ok [sample_content]) by (constructor; [apply bytes_okb_ok; vm_compute; reflexivity|constructor]).
  destruct (C11_parse_errors_exact [sample_content] B) as (st & segs & rest & E & S & P). cbn [concat] in S. rewrite app_nil_r in S.
  exists segs, rest. split; [exact S|]. rewrite <- P.
  assert (X : match feed framer_init [sample_content] with Ok (st, _) => fr_errs st | Err _ => 0 end = 1) by (vm_compute; reflexivity).
  now rewrite E in X.
Qed.
Print Assumptions C39_parsing_errors_refuted.
