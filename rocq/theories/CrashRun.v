(** * CrashRun: a conversion that is killed, compared with the same conversion left alone. *)
From Coq Require Import Permutation Lia.
From Verif Require Import PyBase PyDict PyFloat PyVal BitsModel FramerModel MsmModel DecoderModel JsonModel JsonFileSpec JsonFiles MargoModel
  PrinterModel PrinterSpec PrinterProofs MainModel PropertiesMain CrashModel CrashProofs.
Local Open Scope string_scope.
Local Open Scope list_scope.
Local Open Scope Z_scope.

Section Run.
Variable ord : list (subprinter world) -> list (subprinter world).
Hypothesis O : walk ord.
Variable n : nat.

Definition tame_run (s : run) : Prop := Forall tame (pt_printers (cv_printer (r_conv s))).
Definition good_run (s : run) : Prop := winv (r_world s) /\ tame_run s.
Definition steps (s : run) : nat := length (r_trace s).

(** Left alone: the state stays good, files grow, operations are counted. *)
Definition keeps {A} (x : act A) : Prop := forall s, good_run s ->
  let s' := fst (x s) in good_run s' /\ wgrows (r_world s) (r_world s') /\ (steps s <= steps s')%nat.
(** Killed, as compared with left alone. *)
Definition sim {A} (x y : act A) : Prop := forall s, good_run s -> (steps s <= n)%nat ->
  (x s = y s /\ (steps (fst (y s)) <= n)%nat) \/
  (exists s' e, x s = (s', Err e) /\ steps s' = S n /\ winv (r_world s') /\ wgrows (r_world s') (r_world (fst (y s))) /\
     (n < steps (fst (y s)))%nat).

Lemma ord_in p l : In p (ord l) -> In p l.
Proof. intros I. exact (Permutation_in p (Permutation_sym (O l)) I). Qed.

Lemma keeps_ret {A} (a : A) : keeps (ret a).
Proof. intros s G. cbn. auto using wgrows_refl. Qed.
Lemma keeps_raise {A} e : keeps (raise (A := A) e).
Proof. intros s G. cbn. auto using wgrows_refl. Qed.
Lemma keeps_andthen {A B} (x : act A) (f : A -> act B) : keeps x -> (forall a, keeps (f a)) -> keeps (andthen x f).
Proof.
  intros X F s G. unfold andthen. specialize (X s G). destruct (x s) as [s1 [a|e]]; cbn [fst] in *; [|exact X].
  destruct X as (G1 & W1 & S1). destruct (F a s1 G1) as (G2 & W2 & S2). cbv zeta. split; [exact G2|]. split; [eauto using wgrows_trans|lia].
Qed.
(** One operation: what it does to good states. *)
Definition harmless {A} (f : converter world * world -> (converter world * world) * res A) : Prop :=
  forall c w, winv w -> Forall tame (pt_printers (cv_printer c)) ->
    let '((c', w'), _) := f (c, w) in winv w' /\ Forall tame (pt_printers (cv_printer c')) /\ wgrows w w'.
Lemma keeps_perform {A} o (f : converter world * world -> (converter world * world) * res A) : harmless f -> keeps (perform no_faults o f).
Proof.
  intros H s (W & T). unfold perform, no_faults. specialize (H (r_conv s) (r_world s) W T).
  destruct (f (r_conv s, r_world s)) as [[c' w'] r]. cbn [fst r_conv r_world]. destruct H as (W' & T' & G').
  unfold good_run, tame_run, steps. cbn [r_conv r_world r_trace length]. auto.
Qed.
Lemma perform_stop {A} o (f : converter world * world -> (converter world * world) * res A) s :
  perform (stop n no_faults) o f s =
  if Nat.eqb (steps s) n then ({| r_conv := r_conv s; r_world := r_world s; r_trace := (o, false) :: r_trace s |}, Err EKeyboard)
  else perform no_faults o f s.
Proof. unfold perform, stop, steps. destruct (Nat.eqb (length (r_trace s)) n); reflexivity. Qed.
Lemma perform_steps {A} o (f : converter world * world -> (converter world * world) * res A) s :
  steps (fst (perform no_faults o f s)) = S (steps s).
Proof. unfold perform, no_faults, steps. destruct (f (r_conv s, r_world s)) as [[c' w'] r]. reflexivity. Qed.
Lemma sim_perform {A} o (f : converter world * world -> (converter world * world) * res A) : harmless f ->
  sim (perform (stop n no_faults) o f) (perform no_faults o f).
Proof.
  intros H s G L. pose proof (keeps_perform o f H s G) as (G' & W' & _). rewrite perform_stop, perform_steps.
  destruct (Nat.eqb_spec (steps s) n) as [E|N].
  - right. eexists. eexists. split; [reflexivity|]. unfold steps at 1. cbn [r_trace length r_world]. fold (steps s). split; [now rewrite E|].
    split; [exact (proj1 G)|]. split; [exact W'|]. lia.
  - left. split; [reflexivity|]. lia.
Qed.
Lemma sim_same {A} (x : act A) : (forall s, steps (fst (x s)) = steps s) -> sim x x.
Proof. intros H s G L. left. split; [reflexivity|]. now rewrite H. Qed.
Lemma sim_andthen {A B} (x y : act A) (f g : A -> act B) : sim x y -> (forall a, sim (f a) (g a)) -> (forall a, keeps (g a)) -> keeps y ->
  sim (andthen x f) (andthen y g).
Proof.
  intros X F K KY s G L. unfold andthen. specialize (KY s G). destruct (X s G L) as [(E & S)|(s' & e & E & S & W & WG & N)]; rewrite E.
  - destruct (y s) as [s1 [a|e]]; cbn [fst] in *; [|left; auto]. exact (F a s1 (proj1 KY) S).
  - right. exists s', e. split; [reflexivity|]. split; [exact S|]. split; [exact W|].
    destruct (y s) as [s1 [a|e1]]; cbn [fst] in *; [|auto]. destruct (K a s1 (proj1 KY)) as (_ & W2 & S2). split; [eauto using wgrows_trans|lia].
Qed.

Lemma harmless_silent : harmless (fun cw => (cw, Ok tt)).
Proof. intros c w W T. auto using wgrows_refl. Qed.
Lemma harmless_const {A} (r : res A) : harmless (fun cw => (cw, r)).
Proof. intros c w W T. auto using wgrows_refl. Qed.
Lemma harmless_decode m : harmless (fun '(c, w) => let '(c, x) := cv_decode c m in ((c, w), x)).
Proof. intros c w W T. unfold cv_decode. destruct (decode (cv_decoder c) m) as [r d]. cbn [cv_printer]. auto using wgrows_refl. Qed.
Lemma harmless_parse b : harmless (fun '(cv, w) => let '(cv, ms) := cv_parse cv b in ((cv, w), ms)).
Proof. intros c w W T. unfold cv_parse. destruct (catch_message (cv_framer c) b) as [[f ms]|e]; cbn [cv_printer]; auto using wgrows_refl. Qed.
Lemma print_body_good p w x : winv w -> Forall tame (pt_printers p) ->
  let '(p', w', _) := print_body ord p w x in winv w' /\ Forall tame (pt_printers p') /\ wgrows w w'.
Proof.
  intros W T. unfold print_body. destruct (find (takes (class_of x)) (ord (pt_printers p))) as [q|] eqn:F; [|auto using wgrows_refl].
  apply find_some in F. destruct F as (I & _). apply ord_in in I. pose proof T as T0. rewrite Forall_forall in T. destruct (T q I) as (P & _).
  destruct (sp_print q) as [f|]; [|cbn [pt_printers]; auto using wgrows_refl].
  destruct (P w x W) as (W' & G'). destruct (f w x) as [w' [u|e]]; cbn [fst pt_printers] in *; auto.
Qed.
Lemma harmless_print x : harmless (fun '(c, w) => cv_print ord c w x).
Proof.
  intros c w W T. unfold cv_print, top_print. pose proof (print_body_good (cv_printer c) w x W T) as H.
  destruct (print_body ord (cv_printer c) w x) as [[p' w'] [u|[]]]; cbn [cv_printer]; exact H.
Qed.

Lemma keeps_messages : forall ms, keeps (messages ord no_faults ms).
Proof.
  induction ms as [|m ms IH]; cbn [messages]; [apply keeps_ret|].
  apply keeps_andthen; [apply keeps_perform, harmless_decode|]. intros [x|]; apply keeps_andthen; auto using keeps_ret.
  apply keeps_perform, harmless_print.
Qed.
Lemma sim_messages : forall ms, sim (messages ord (stop n no_faults) ms) (messages ord no_faults ms).
Proof.
  induction ms as [|m ms IH]; cbn [messages]; [apply sim_same; reflexivity|].
  assert (K : forall x, keeps (andthen (match x with None => ret tt | Some o => perform no_faults OPrint (fun '(c, w) => cv_print ord c w o) end)
     (fun _ => messages ord no_faults ms))).
  { intros [x|]; apply keeps_andthen; auto using keeps_ret, keeps_messages, keeps_perform, harmless_print. }
  apply sim_andthen; [apply sim_perform, harmless_decode| |exact K|apply keeps_perform, harmless_decode].
  intros [x|]; apply sim_andthen; auto using sim_perform, harmless_print, keeps_perform, keeps_messages, keeps_ret. apply sim_same. reflexivity.
Qed.
Lemma keeps_chunks : forall reads size done, keeps (chunks ord no_faults size done reads).
Proof.
  induction reads as [|c reads IH]; intros size done; cbn [chunks]; apply keeps_andthen; try (apply keeps_perform, harmless_silent); intros _; [apply keeps_ret|].
  destruct c as [|b c]; [apply keeps_ret|]. cbv zeta.
  apply keeps_andthen; [apply keeps_perform, harmless_parse|]. intros ms. apply keeps_andthen; [apply keeps_messages|]. intros _.
  apply keeps_andthen; [apply keeps_perform, harmless_silent|]. intros _.
  apply keeps_andthen; [destruct (size =? 0); [apply keeps_raise|apply keeps_ret]|]. intros _.
  apply keeps_andthen; [apply keeps_perform, harmless_silent|]. intros _. apply IH.
Qed.
Lemma sim_silent o : sim (silent (stop n no_faults) o) (silent no_faults o).
Proof. apply sim_perform, harmless_silent. Qed.
Lemma keeps_silent o : keeps (silent no_faults o).
Proof. apply keeps_perform, harmless_silent. Qed.
Lemma sim_chunks : forall reads size done, sim (chunks ord (stop n no_faults) size done reads) (chunks ord no_faults size done reads).
Proof.
  induction reads as [|c reads IH]; intros size done; cbn [chunks].
  { apply sim_andthen; intros; auto using sim_silent, keeps_silent, keeps_ret. apply sim_same. reflexivity. }
  destruct c as [|b c].
  { apply sim_andthen; intros; auto using sim_silent, keeps_silent, keeps_ret. apply sim_same. reflexivity. }
  cbv zeta. apply sim_andthen; [apply sim_silent| | |apply keeps_silent]; intros _.
  2:{ apply keeps_andthen; [apply keeps_perform, harmless_parse|]. intros ms. apply keeps_andthen; [apply keeps_messages|]. intros _.
      apply keeps_andthen; [apply keeps_silent|]. intros _.
      apply keeps_andthen; [destruct (size =? 0); [apply keeps_raise|apply keeps_ret]|]. intros _.
      apply keeps_andthen; [apply keeps_silent|]. intros _. apply keeps_chunks. }
  assert (K1 : keeps (chunks ord no_faults size (done + zlen (b :: c)) reads)) by apply keeps_chunks.
  assert (K2 : keeps (andthen (silent no_faults OProgress) (fun _ => chunks ord no_faults size (done + zlen (b :: c)) reads)))
    by (apply keeps_andthen; [apply keeps_silent|intros _; exact K1]).
  assert (Z : keeps (if size =? 0 then raise EZeroDiv else ret tt)) by (destruct (size =? 0); [apply keeps_raise|apply keeps_ret]).
  assert (K3 := keeps_andthen _ (fun _ : unit => andthen (silent no_faults OProgress) (fun _ => chunks ord no_faults size (done + zlen (b :: c)) reads)) Z (fun _ => K2)).
  assert (K4 := keeps_andthen _ (fun _ : unit => _) (keeps_silent OStats) (fun _ => K3)).
  apply sim_andthen; [apply sim_perform, harmless_parse| |intros ms; apply keeps_andthen; [apply keeps_messages|intros _; exact K4]|apply keeps_perform, harmless_parse].
  intros ms. apply sim_andthen; [apply sim_messages| |intros _; exact K4|apply keeps_messages]. intros _.
  apply sim_andthen; [apply sim_silent| |intros _; exact K3|apply keeps_silent]. intros _.
  apply sim_andthen; [apply sim_same; destruct (size =? 0); reflexivity| |intros _; exact K2|exact Z]. intros _.
  apply sim_andthen; [apply sim_silent|intros _; apply IH|intros _; exact K1|apply keeps_silent].
Qed.

(** The whole [try] block: an action whose result also tells whether the source was opened. *)
Lemma try_good src s : good_run s ->
  let '(s', _, _) := try_block ord no_faults src s in good_run s' /\ wgrows (r_world s) (r_world s') /\ (steps s <= steps s')%nat.
Proof.
  intros G. unfold try_block.
  pose proof (keeps_perform OOpen (fun cw => (cw, match src with Some _ => Ok tt | None => Err EOS end)) (harmless_const _) s G) as K.
  destruct (perform no_faults OOpen _ s) as [s1 [u|e]]; cbn [fst] in K; [|exact K].
  assert (K2 : keeps (andthen (silent no_faults OLog) (fun _ => andthen (silent no_faults OSize) (fun _ =>
            match src with Some (size, reads) => chunks ord no_faults size 0 reads | None => ret tt end)))).
  { apply keeps_andthen; [apply keeps_silent|]. intros _. apply keeps_andthen; [apply keeps_silent|]. intros _. destruct src as [[size reads]|]; [apply keeps_chunks|apply keeps_ret]. }
  destruct K as (G1 & W1 & S1). specialize (K2 s1 G1). destruct (andthen _ _ s1) as [s2 r]. cbn [fst] in K2. destruct K2 as (G2 & W2 & S2).
  split; [exact G2|]. split; [eauto using wgrows_trans|lia].
Qed.
Lemma try_sim src s : good_run s -> (steps s <= n)%nat ->
  let '(s2, r2, o2) := try_block ord no_faults src s in
  let '(s1, r1, o1) := try_block ord (stop n no_faults) src s in
  (s1 = s2 /\ r1 = r2 /\ o1 = o2 /\ (steps s2 <= n)%nat) \/
  (steps s1 = S n /\ winv (r_world s1) /\ wgrows (r_world s1) (r_world s2) /\ (n < steps s2)%nat).
Proof.
  intros G L. unfold try_block.
  pose proof (keeps_perform OOpen (fun cw => (cw, match src with Some _ => Ok tt | None => Err EOS end)) (harmless_const _) s G) as K.
  pose proof (sim_perform OOpen (fun cw => (cw, match src with Some _ => Ok tt | None => Err EOS end)) (harmless_const _) s G L) as X.
  assert (K2 : keeps (andthen (silent no_faults OLog) (fun _ => andthen (silent no_faults OSize) (fun _ =>
            match src with Some (size, reads) => chunks ord no_faults size 0 reads | None => ret tt end)))).
  { apply keeps_andthen; [apply keeps_silent|]. intros _. apply keeps_andthen; [apply keeps_silent|]. intros _. destruct src as [[size reads]|]; [apply keeps_chunks|apply keeps_ret]. }
  assert (X2 : sim (andthen (silent (stop n no_faults) OLog) (fun _ => andthen (silent (stop n no_faults) OSize) (fun _ =>
            match src with Some (size, reads) => chunks ord (stop n no_faults) size 0 reads | None => ret tt end)))
     (andthen (silent no_faults OLog) (fun _ => andthen (silent no_faults OSize) (fun _ =>
            match src with Some (size, reads) => chunks ord no_faults size 0 reads | None => ret tt end)))).
  { assert (K3 : keeps (match src with Some (size, reads) => chunks ord no_faults size 0 reads | None => ret tt end))
      by (destruct src as [[size reads]|]; [apply keeps_chunks|apply keeps_ret]).
    apply sim_andthen; [apply sim_silent| |intros _; apply keeps_andthen; [apply keeps_silent|intros _; exact K3]|apply keeps_silent]. intros _.
    apply sim_andthen; [apply sim_silent| |intros _; exact K3|apply keeps_silent]. intros _.
    destruct src as [[size reads]|]; [apply sim_chunks|apply sim_same; reflexivity]. }
  destruct X as [(E & S1)|(s' & e & E & S1 & W1 & WG & N)].
  - rewrite E. destruct (perform no_faults OOpen _ s) as [s1 [u|e]]; cbn [fst] in *; [|left; auto].
    specialize (X2 s1 (proj1 K) S1). destruct X2 as [(E2 & S2)|(s' & e & E2 & S2 & W2 & WG2 & N2)]; rewrite E2.
    + revert S2. destruct (andthen (silent no_faults OLog) _ s1) as [s2 r2]. cbn [fst]. intros S2. left. auto.
    + revert WG2 N2. destruct (andthen (silent no_faults OLog) _ s1) as [s2 r2]. cbn [fst]. intros WG2 N2. right. auto.
  - rewrite E. destruct (perform no_faults OOpen _ s) as [s1 [u|e1]]; cbn [fst] in *; [|right; auto].
    specialize (K2 s1 (proj1 K)). destruct (andthen _ _ s1) as [s2 r2]. cbn [fst] in K2. destruct K2 as (_ & W2 & S2).
    right. split; [exact S1|]. split; [exact W1|]. split; [eauto using wgrows_trans|lia].
Qed.

Lemma keeps_handler e : keeps (handler no_faults e).
Proof. destruct e; cbn [handler]; repeat (apply keeps_andthen; [apply keeps_silent|intros _]); apply keeps_ret. Qed.
Lemma sim_handler e : sim (handler (stop n no_faults) e) (handler no_faults e).
Proof.
  destruct e; cbn [handler];
    repeat (apply sim_andthen; [apply sim_silent|intros _|intros _; repeat (apply keeps_andthen; [apply keeps_silent|intros _]); apply keeps_ret|apply keeps_silent]);
    apply sim_same; reflexivity.
Qed.

(** The [finally] block: after the release no more growing is needed, only that it is the last to write. *)
Lemma close_good : forall l w, Forall tame l -> placed w -> placed (fst (close_all l w)) /\ wgrows w (fst (close_all l w)).
Proof.
  induction l as [|p l IH]; intros w T P; cbn [close_all]; [cbn [fst]; auto using wgrows_refl|].
  inversion T as [|? ? Tp Tl]; subst. destruct Tp as (_ & C). destruct (sp_close p) as [f|]; [|cbn [fst]; auto using wgrows_refl].
  destruct (C w P) as (P1 & G1). destruct (f w) as [w1 [u|e]]; cbn [fst] in *; [|auto].
  destruct (IH w1 Tl P1) as (P2 & G2). eauto using wgrows_trans.
Qed.
Lemma release_good c w : Forall tame (pt_printers (cv_printer c)) -> placed w ->
  placed (fst (cv_release ord c w)) /\ wgrows w (fst (cv_release ord c w)).
Proof.
  intros T P. unfold cv_release, top_close. apply close_good; [|exact P]. apply Forall_forall. intros p I. apply ord_in in I. now apply (proj1 (Forall_forall _ _) T).
Qed.
Lemma silent_world faults o s : r_world (fst (silent faults o s)) = r_world s \/ exists e d, faults (steps s) = Some (During e d).
Proof.
  unfold silent, perform, steps. destruct (faults (length (r_trace s))) as [[e|e d]|]; [left; reflexivity|right; eauto|left; reflexivity].
Qed.
Lemma stop_before i : forall e d, stop n no_faults i <> Some (During e d).
Proof. intros e d. unfold stop, no_faults. destruct (Nat.eqb i n); discriminate. Qed.
Lemma rest_world faults opened s : (forall i e d, faults i <> Some (During e d)) ->
  r_world (fst (andthen (silent faults OLog) (fun _ => if opened : bool then silent faults OCloseFile else ret tt) s)) = r_world s.
Proof.
  intros H. unfold andthen. destruct (silent_world faults OLog s) as [E|(e & d & E)]; [|now destruct (H _ _ _ E)].
  destruct (silent faults OLog s) as [s1 [u|e]]; cbn [fst] in *; [|exact E]. destruct opened; [|exact E].
  destruct (silent_world faults OCloseFile s1) as [E1|(e & d & E1)]; [congruence|now destruct (H _ _ _ E1)].
Qed.
Lemma first_step {A B} (x : act A) (f : A -> act B) s : andthen x f s = match x s with (s, Ok a) => f a s | (s, Err e) => (s, Err e) end.
Proof. reflexivity. Qed.
Lemma finally_good opened s : good_run s ->
  let s' := fst (finally_block ord no_faults opened s) in placed (r_world s') /\ wgrows (r_world s) (r_world s').
Proof.
  intros (W & T). cbv zeta. destruct (release_good (r_conv s) (r_world s) T (winv_placed _ W)) as (P & G).
  assert (H : r_world (fst (finally_block ord no_faults opened s)) = fst (cv_release ord (r_conv s) (r_world s))); [|rewrite H; split; assumption].
  unfold finally_block. rewrite first_step.
  assert (E : perform no_faults ORelease (fun '(c, w) => let '(w, r) := cv_release ord c w in ((c, w), r)) s =
    (let '(w, r) := cv_release ord (r_conv s) (r_world s) in ({| r_conv := r_conv s; r_world := w; r_trace := (ORelease, true) :: r_trace s |}, r))).
  { unfold perform, no_faults. destruct (cv_release ord (r_conv s) (r_world s)) as [w' r]. reflexivity. }
  rewrite E. destruct (cv_release ord (r_conv s) (r_world s)) as [w' [u|e]]; [|reflexivity].
  rewrite (rest_world no_faults) by discriminate. reflexivity.
Qed.
Lemma finally_sim opened s : good_run s -> (steps s <= n)%nat ->
  let s1 := fst (finally_block ord (stop n no_faults) opened s) in
  let s2 := fst (finally_block ord no_faults opened s) in
  placed (r_world s1) /\ wgrows (r_world s1) (r_world s2) /\ (steps s <> n -> r_world s1 = r_world s2).
Proof.
  intros G L. cbv zeta. pose proof (finally_good opened s G) as (P2 & G2). cbv zeta in P2, G2.
  destruct (Nat.eqb_spec (steps s) n) as [E|N].
  - assert (H : fst (finally_block ord (stop n no_faults) opened s) = {| r_conv := r_conv s; r_world := r_world s; r_trace := (ORelease, false) :: r_trace s |}).
    { unfold finally_block. unfold andthen at 1. rewrite perform_stop, E, Nat.eqb_refl. reflexivity. }
    rewrite H. cbn [r_world]. split; [apply winv_placed, G|]. split; [exact G2|]. intros X. contradiction.
  - assert (H : r_world (fst (finally_block ord (stop n no_faults) opened s)) = r_world (fst (finally_block ord no_faults opened s))).
    { unfold finally_block. rewrite !first_step, perform_stop. destruct (Nat.eqb_spec (steps s) n); [contradiction|].
      destruct (perform no_faults ORelease _ s) as [s1 [u|e]]; [|reflexivity].
      rewrite (rest_world no_faults) by discriminate. rewrite rest_world by apply stop_before. reflexivity. }
    rewrite H. split; [exact P2|]. split; [apply wgrows_refl|reflexivity].
Qed.

(** The conversion. *)
Lemma killed_grows src s : good_run s -> (steps s <= n)%nat ->
  let s1 := killed ord no_faults n src s in let s2 := fst (decode_rtcm_file ord no_faults src s) in
  placed (r_world s1) /\ placed (r_world s2) /\ wgrows (r_world s1) (r_world s2) /\
  ((steps s2 <= n)%nat -> r_world s1 = r_world s2).
Proof.
  intros G L. cbv zeta. unfold killed, decode_rtcm_file.
  pose proof (try_good src s G) as T. pose proof (try_sim src s G L) as X.
  destruct (try_block ord no_faults src s) as [[s2 r2] o2]. destruct (try_block ord (stop n no_faults) src s) as [[s1 r1] o1].
  destruct T as (G2 & W2 & S2).
  assert (H2 : let h := match r2 with Ok _ => (s2, Ok true) | Err e => handler no_faults e s2 end in
     good_run (fst h) /\ wgrows (r_world s2) (r_world (fst h)) /\ (steps s2 <= steps (fst h))%nat).
  { destruct r2 as [u|e]; [cbn [fst]; cbv zeta; auto using wgrows_refl|]. exact (keeps_handler e s2 G2). }
  cbv zeta in H2.
  assert (D : forall h, placed (r_world (fst (finally_block ord no_faults o2 (fst h)))) ->
     r_world (fst (let '(s, r) := h in match finally_block ord no_faults o2 s with (s, Err e) => (s, Err e) | (s, Ok _) => (s, r) end)) =
     r_world (fst (finally_block ord no_faults o2 (fst h))) /\
     steps (fst (let '(s, r) := h : run * res bool in match finally_block ord no_faults o2 s with (s, Err e) => (s, Err e) | (s, Ok _) => (s, r) end)) =
     steps (fst (finally_block ord no_faults o2 (fst h)))).
  { intros [sh rh] _. cbn [fst]. destruct (finally_block ord no_faults o2 sh) as [sf [u|e]]; auto. }
  assert (FS : forall o' s0, (steps s0 < steps (fst (finally_block ord no_faults o' s0)))%nat).
  { intros o' s0. unfold finally_block. rewrite first_step.
    pose proof (perform_steps ORelease (fun '(c, w) => let '(w, r) := cv_release ord c w in ((c, w), r)) s0) as PS.
    destruct (perform no_faults ORelease _ s0) as [s3 [u|e]]; cbn [fst] in *; [|lia].
    rewrite first_step. pose proof (perform_steps OLog (fun cw => (cw, Ok tt)) s3) as PS2. unfold silent.
    destruct (perform no_faults OLog _ s3) as [s4 [v|e]]; cbn [fst] in *; [|lia]. destruct o'; [|cbn [ret fst]; lia].
    rewrite perform_steps. lia. }
  destruct X as [(-> & -> & -> & Sn)|(S1 & W1 & WG & N)].
  - destruct (Nat.ltb_spec n (length (r_trace s2))) as [Q|Q]; [unfold steps in Sn; lia|].
    assert (HS : let h1 := match r2 with Ok _ => (s2, Ok true) | Err e => handler (stop n no_faults) e s2 end in
                 let h2 := match r2 with Ok _ => (s2, Ok true) | Err e => handler no_faults e s2 end in
      (h1 = h2 /\ (steps (fst h2) <= n)%nat) \/
      (steps (fst h1) = S n /\ winv (r_world (fst h1)) /\ wgrows (r_world (fst h1)) (r_world (fst h2)) /\ (n < steps (fst h2))%nat)).
    { cbv zeta. destruct r2 as [u|e]; [left; auto|]. destruct (sim_handler e s2 G2 Sn) as [(E & H)|(s' & e' & E & A & B & C & F)]; [left; rewrite E; auto|].
      right. rewrite E. cbn [fst]. auto. }
    cbv zeta in HS. set (h2 := match r2 with Ok _ => (s2, Ok true) | Err e => handler no_faults e s2 end) in *.
    set (h1 := match r2 with Ok _ => (s2, Ok true) | Err e => handler (stop n no_faults) e s2 end) in *.
    destruct H2 as (Gh & Wh & Sh). pose proof (finally_good o2 (fst h2) Gh) as (PF & GF). cbv zeta in PF, GF.
    destruct (D h2 PF) as (D1 & D2). rewrite D1, D2. clear D D1 D2.
    destruct HS as [(EH & SH)|(SH & WH & WGH & NH)].
    + rewrite EH. pose proof (finally_sim o2 (fst h2) Gh SH) as (A & B & C). cbv zeta in A, B, C.
      destruct h2 as [sh rh]. cbn [fst] in *. destruct (Nat.ltb_spec n (length (r_trace sh))) as [Q1|Q1]; [unfold steps in SH; lia|].
      split; [exact A|]. split; [exact PF|]. split; [exact B|]. intros SS. apply C. specialize (FS o2 sh). lia.
    + destruct h1 as [sh1 rh1]. cbn [fst] in *. destruct (Nat.ltb_spec n (length (r_trace sh1))) as [Q1|Q1]; [|unfold steps in SH; lia].
      split; [now apply winv_placed|]. split; [exact PF|]. split; [eauto using wgrows_trans|]. specialize (FS o2 (fst h2)). lia.
  - destruct (Nat.ltb_spec n (length (r_trace s1))) as [Q|Q]; [|unfold steps in S1; lia].
    destruct H2 as (Gh & Wh & Sh). set (h2 := match r2 with Ok _ => (s2, Ok true) | Err e => handler no_faults e s2 end) in *.
    pose proof (finally_good o2 (fst h2) Gh) as (PF & GF). cbv zeta in PF, GF. destruct (D h2 PF) as (D1 & D2). rewrite D1, D2.
    split; [now apply winv_placed|]. split; [exact PF|]. split; [eauto 6 using wgrows_trans|]. specialize (FS o2 (fst h2)). lia.
Qed.
End Run.
