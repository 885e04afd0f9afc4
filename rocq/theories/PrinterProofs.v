(** * PrinterProofs: lemmas for PropertiesPrinter. *)
From Coq Require Import Permutation.
From Verif Require Import PyBase PyDict PyFloat PyVal BitsSpec FramerModel MsmModel DecoderModel DecoderSpec DecoderProofs
  MargoModel JsonModel PrinterModel PrinterSpec.
Local Open Scope string_scope.
Local Open Scope list_scope.
Local Open Scope Z_scope.

Lemma find_perm {A} (f : A -> bool) l l' : Permutation l l' ->
  (forall x y, In x l -> In y l -> f x = true -> f y = true -> x = y) -> find f l = find f l'.
Proof.
  intros P U. destruct (find f l) as [x|] eqn:F.
  - apply find_some in F. destruct F as (I & T). destruct (find f l') as [y|] eqn:F'.
    + apply find_some in F'. destruct F' as (I' & T'). f_equal. apply U; auto. eapply Permutation_in; [|exact I']. now symmetry.
    + pose proof (find_none _ _ F' x (Permutation_in _ P I)). congruence.
  - destruct (find f l') as [y|] eqn:F'; [|reflexivity]. apply find_some in F'. destruct F' as (I' & T').
    pose proof (find_none _ _ F y (Permutation_in _ (Permutation_sym P) I')). congruence.
Qed.

Lemma existsb_In cls l : existsb (String.eqb cls) l = true <-> In cls l.
Proof.
  rewrite existsb_exists. split; [intros (x & I & E); apply String.eqb_eq in E; now subst|].
  intros I. exists cls. split; [exact I|apply String.eqb_refl].
Qed.
Lemma takes_prints {W} cls (p : subprinter W) : takes cls p = true <-> prints p cls.
Proof. unfold takes, prints. rewrite andb_true_iff, !existsb_In. tauto. Qed.

(** ** Histories *)
Section History.
Context {W : Type} (ord : list (subprinter W) -> list (subprinter W)) (w : W).

Lemma pafter_snoc h e : pafter ord w (h ++ [e]) = pstep ord (pafter ord w h) e.
Proof. unfold pafter. now rewrite fold_left_app. Qed.

Lemma top_print_keeps st v x : let '(st', _, _) := top_print ord st v x in
  pt_format st' = pt_format st /\ pt_printers st' = pt_printers st.
Proof.
  unfold top_print, print_body. destruct (find _ _) as [p|]; [|cbn; auto].
  destruct (sp_print p) as [f|]; [|cbn; auto]. destruct (f v x) as [v' [[]|[]]]; cbn; auto.
Qed.

Lemma specs_known f : sget SPECS_LIST f <> None <-> known_format f.
Proof.
  unfold known_format, sget, SPECS_LIST. cbn [dget fst snd]. split.
  - intros H. repeat match type of H with context[String.eqb ?a ?b] => destruct (String.eqb_spec a b); [subst; cbn; tauto|] end. now destruct H.
  - intros [<-|[<-|[<-|[]]]]; discriminate.
Qed.

Lemma format_state (h : list (pevent W)) : pt_exist (fst (pafter ord w h)) = true <-> format_set h.
Proof.
  induction h as [|e h IH] using rev_ind.
  { split; [discriminate|]. intros (b & f & a & E & _). destruct b; discriminate. }
  assert (K : (forall f, e <> SetFormat f) -> (format_set (h ++ [e]) <-> format_set h)).
  { intros N. split.
    - intros (b & f & a & E & KF & A). destruct a as [|y a] using rev_ind.
      + apply app_inj_tail in E. destruct E as (_ & E). now destruct (N f).
      + clear IHa. change (b ++ SetFormat f :: a ++ [y]) with (b ++ (SetFormat f :: a) ++ [y]) in E. rewrite app_assoc in E.
        apply app_inj_tail in E. destruct E as (-> & <-). exists b, f, a. split; [reflexivity|]. split; [exact KF|].
        intros f' I. apply (A f'). apply in_or_app. now left.
    - intros (b & f & a & -> & KF & A). exists b, f, (a ++ [e]). split; [now rewrite <- app_assoc|]. split; [exact KF|].
      intros f' I. apply in_app_or in I. destruct I as [I|[I|[]]]; [now apply (A f')|now apply (N f')]. }
  rewrite pafter_snoc. destruct e as [f|io|x]; cbn [pstep fst].
  - clear K IH. unfold pt_exist, set_format. cbn [pt_format]. split.
    + intros H. exists h, f, []. split; [reflexivity|]. split; [|intros ? []]. apply specs_known. destruct (sget SPECS_LIST f); [discriminate|discriminate H].
    + intros (b & f' & a & E & KF & A). destruct a as [|y a] using rev_ind.
      * apply app_inj_tail in E. destruct E as (_ & E). injection E as <-. unfold known_format in KF. cbn in KF.
        destruct KF as [<-|[<-|[<-|[]]]]; reflexivity.
      * clear IHa. change (b ++ SetFormat f' :: a ++ [y]) with (b ++ (SetFormat f' :: a) ++ [y]) in E. rewrite app_assoc in E.
        apply app_inj_tail in E. destruct E as (_ & <-). exfalso. apply (A f). apply in_or_app. right. now left.
  - rewrite K by discriminate. rewrite <- IH. unfold add_subprinter. destruct (pt_exist (fst (pafter ord w h))) eqn:X; cbn [negb]; [|cbn [fst]; now rewrite X].
    destruct (sp_print io), (sp_close io); try (cbn [fst]; now rewrite X). destruct (zlen (sp_actual io) =? 0); cbn [fst]; [now rewrite X|].
    unfold pt_exist in X |- *. cbn [pt_format]. now rewrite X.
  - rewrite K by discriminate. rewrite <- IH. pose proof (top_print_keeps (fst (pafter ord w h)) (snd (pafter ord w h)) x) as T.
    destruct (top_print _ _ _ _) as [[st' v'] r]. cbn [fst]. unfold pt_exist. destruct T as (-> & _). reflexivity.
Qed.

Lemma taken_snoc (h : list (pevent W)) (e : pevent W) (io : subprinter W) : taken (h ++ [e]) io <-> taken h io \/ (e = AddPrinter io /\ format_set h /\ printer_ok io).
Proof.
  split.
  - intros (b & a & E & F & P). destruct a as [|y a] using rev_ind.
    + apply app_inj_tail in E. destruct E as (-> & ->). right. auto.
    + clear IHa. change (b ++ AddPrinter io :: a ++ [y]) with (b ++ (AddPrinter io :: a) ++ [y]) in E. rewrite app_assoc in E.
      apply app_inj_tail in E. destruct E as (-> & <-). left. exists b, a. auto.
  - intros [(b & a & -> & F & P)|(-> & F & P)].
    + exists b, (a ++ [e]). split; [now rewrite <- app_assoc|]. auto.
    + exists h, []. auto.
Qed.

Lemma printers_state (h : list (pevent W)) : identified h ->
  forall io, In io (pt_printers (fst (pafter ord w h))) <-> taken h io.
Proof.
  induction h as [|e h IH] using rev_ind; intros ID io.
  { split; [intros []|]. intros (b & a & E & _). destruct b; discriminate. }
  assert (IDh : identified h) by (intros x y I J; apply ID; apply in_or_app; now left). specialize (IH IDh).
  assert (AD : forall io, taken h io -> In (AddPrinter io) h) by (intros i (b & a & -> & _); apply in_or_app; right; now left).
  rewrite pafter_snoc, taken_snoc. destruct e as [f|new|x]; cbn [pstep fst].
  - cbn [set_format pt_printers]. rewrite IH. split; [auto|]. intros [H|(H & _)]; [exact H|discriminate].
  - pose proof (format_state h) as FS. unfold add_subprinter. destruct (pt_exist (fst (pafter ord w h))) eqn:X; cbn [negb].
    2:{ cbn [fst]. rewrite IH. split; [auto|]. intros [H|(H & F & _)]; [exact H|]. apply FS in F. congruence. }
    assert (NK : ~ printer_ok new -> (taken h io \/ AddPrinter new = AddPrinter io /\ format_set h /\ printer_ok io) <-> taken h io).
    { intros NK. split; [|auto]. intros [H|(H & _ & P)]; [exact H|]. injection H as <-. now destruct NK. }
    unfold printer_ok in NK.
    destruct (sp_print new) eqn:SP; [|rewrite NK by (intros (H & _); congruence); cbn [fst]; apply IH].
    destruct (sp_close new) eqn:SC; [|rewrite NK by (intros (_ & H & _); congruence); cbn [fst]; apply IH].
    destruct (zlen (sp_actual new) =? 0) eqn:Z.
    + rewrite NK; [cbn [fst]; apply IH|]. intros (_ & _ & H). destruct (sp_actual new); [congruence|]. unfold zlen in Z. cbn [length] in Z. lia.
    + assert (PO : printer_ok new).
      { split; [congruence|]. split; [congruence|]. intros H. rewrite H in Z. cbn in Z. discriminate. }
      cbn [fst pt_printers]. destruct (existsb _ _) eqn:B.
      * apply existsb_exists in B. destruct B as (q & I & B). apply Nat.eqb_eq in B. apply IH in I.
        assert (q = new).
        { apply ID; [apply in_or_app; left; now apply AD|apply in_or_app; right; now left|exact B]. }
        subst q. rewrite IH. split; [auto|]. intros [H|(H & _)]; [exact H|]. now injection H as <-.
      * rewrite in_app_iff, IH. cbn [In]. split.
        -- intros [H|[<-|[]]]; [auto|]. right. split; [reflexivity|]. split; [now apply FS|exact PO].
        -- intros [H|(H & _)]; [auto|]. injection H as <-. auto.
  - pose proof (top_print_keeps (fst (pafter ord w h)) (snd (pafter ord w h)) x) as T.
    destruct (top_print _ _ _ _) as [[st' v'] r]. cbn [fst]. destruct T as (_ & ->). rewrite IH.
    split; [auto|]. intros [H|(H & _)]; [exact H|discriminate].
Qed.
End History.

(** ** The converters of the factory *)
Definition printers_of (mode : string) (env : os) (ctl : boxed_controls) : list (res (subprinter world)) :=
  if String.eqb mode "MARGO" then [margo_printer true env 0 (box_margo ctl) "MARGO"]
  else if String.eqb mode "JARGO" then
    [json_subprinter true env 0 (box_json ctl) "JARGO"; margo_printer true env 1 (box_margo ctl) "MARGO"]
  else [json_subprinter true env 0 (box_json ctl) "JSON"].

Lemma factory_inv mode isdir env ctl c : factory mode isdir env ctl = Ok (Some c) ->
  isdir = true /\ In mode modes /\
  cv_framer c = framer_init /\ cv_decoder c = after (map Register (decoders_of mode)) /\
  map Ok (pt_printers (cv_printer c)) = printers_of mode env ctl /\
  pt_attempts (cv_printer c) = 0 /\ pt_succeeded (cv_printer c) = 0.
Proof.
  unfold factory, FACTORY, sget. cbn [dget fst snd]. intros H.
  destruct (String.eqb_spec mode "MARGO") as [->|N1]; [|
  destruct (String.eqb_spec mode "JSON") as [->|N2]; [|
  destruct (String.eqb_spec mode "JSON-B") as [->|N3]; [|
  destruct (String.eqb_spec mode "JARGO") as [->|N4]; [|discriminate H]]]].
  all: destruct isdir; [|discriminate H]; split; [reflexivity|]; split; [cbn; tauto|].
  all: unfold printers_of, is_bare; cbn [String.eqb Ascii.eqb Bool.eqb].
  all: apply (f_equal (fun r => match r with Ok (Some x) => x | _ => converter_init end)) in H; cbv beta iota in H;
    subst c; repeat split.
Qed.

Lemma factory_exists mode env ctl : In mode modes -> exists c, factory mode true env ctl = Ok (Some c).
Proof. intros [<-|[<-|[<-|[<-|[]]]]]; eexists; reflexivity. Qed.

(** ** Reachable converters *)
Definition decoded_msgs (calls : list call) : list event :=
  flat_map (fun e => match e with DecodeMsg m => [Decode m] | _ => [] end) calls.

Lemma reached_snoc ord c w calls e : reached ord c w (calls ++ [e]) = cstep ord (reached ord c w calls) e.
Proof. unfold reached. now rewrite fold_left_app. Qed.

Lemma reached_keeps ord c w calls : let '(c', _) := reached ord c w calls in
  pt_printers (cv_printer c') = pt_printers (cv_printer c).
Proof.
  induction calls as [|e calls IH] using rev_ind; [reflexivity|]. rewrite reached_snoc.
  destruct (reached ord c w calls) as [c1 w1]. destruct e as [buf|msg|x]; cbn [cstep fst snd].
  - unfold cv_parse. destruct (catch_message _ _) as [[f ms]|]; exact IH.
  - unfold cv_decode. destruct (decode _ _) as [r d]. exact IH.
  - unfold cv_print. pose proof (top_print_keeps ord (cv_printer c1) w1 x) as T.
    destruct (top_print _ _ _ _) as [[p v] r]. cbn [fst cv_printer]. destruct T as (_ & ->). exact IH.
Qed.

Lemma reached_decoder ord c w calls h : cv_decoder c = after h ->
  cv_decoder (fst (reached ord c w calls)) = after (h ++ decoded_msgs calls).
Proof.
  intros E. induction calls as [|e calls IH] using rev_ind; [cbn; now rewrite app_nil_r|]. rewrite reached_snoc.
  unfold decoded_msgs. rewrite flat_map_app, app_assoc. fold (decoded_msgs calls).
  destruct (reached ord c w calls) as [c1 w1]. cbn [fst] in IH. destruct e as [buf|msg|x]; cbn [cstep fst snd flat_map].
  - rewrite !app_nil_r. unfold cv_parse. destruct (catch_message _ _) as [[f ms]|]; exact IH.
  - rewrite app_nil_r, after_snoc. cbn [after_event]. unfold cv_decode. rewrite <- IH. destruct (decode _ _) as [r d]. reflexivity.
  - rewrite !app_nil_r. unfold cv_print. destruct (top_print _ _ _ _) as [[p v] r]. exact IH.
Qed.


Lemma takes_unique mode env ctl c cls : factory mode true env ctl = Ok (Some c) ->
  forall p q, In p (pt_printers (cv_printer c)) -> In q (pt_printers (cv_printer c)) ->
    takes cls p = true -> takes cls q = true -> p = q.
Proof.
  intros F p q Ip Iq Tp Tq. destruct (factory_inv _ _ _ _ _ F) as (_ & M & _ & _ & PR & _).
  assert (Ip' : In (Ok p) (printers_of mode env ctl)) by (rewrite <- PR; now apply in_map).
  assert (Iq' : In (Ok q) (printers_of mode env ctl)) by (rewrite <- PR; now apply in_map).
  clear Ip Iq PR F.
  destruct M as [<-|[<-|[<-|[<-|[]]]]]; unfold printers_of in *; cbn [String.eqb Ascii.eqb Bool.eqb In] in Ip', Iq'.
  1,2,3: destruct Ip' as [Ip'|[]], Iq' as [Iq'|[]]; congruence.
  assert (X : forall a b, json_subprinter true env 0 (box_json ctl) "JARGO" = Ok a -> margo_printer true env 1 (box_margo ctl) "MARGO" = Ok b ->
     takes cls a = true -> takes cls b = true -> False).
  { intros a b A B Ta Tb. apply takes_prints in Ta, Tb. destruct Ta as (Da & _), Tb as (_ & Ab).
    unfold json_subprinter in A. cbn [negb] in A. unfold margo_printer in B. cbn [negb] in B.
    assert (sp_data a = eph_classes ++ base_classes) as Ea by (change (make_specs "JARGO") with (Ok (A := list string) (eph_classes ++ base_classes)) in A; cbn [bind] in A; apply (f_equal (fun r => match r with Ok x => sp_data x | _ => [] end)) in A; symmetry; exact A).
    assert (sp_actual b = ["ObservablesMSM"]) as Eb by (change (make_specs "MARGO") with (Ok (A := list string) ["ObservablesMSM"; "ObservablesMSM"]) in B; cbn [bind] in B; apply (f_equal (fun r => match r with Ok x => sp_actual x | _ => [] end)) in B; symmetry; exact B).
    rewrite Ea in Da. rewrite Eb in Ab. destruct Ab as [<-|[]]. cbn in Da. intuition discriminate. }
  destruct Ip' as [Ip'|[Ip'|[]]], Iq' as [Iq'|[Iq'|[]]]; try congruence; exfalso; [exact (X p q Ip' Iq' Tp Tq)|exact (X q p Iq' Ip' Tq Tp)].
Qed.

(** [print] and [close] do not depend on the order of the printers. *)
Lemma top_print_order mode env ctl c st : factory mode true env ctl = Ok (Some c) ->
  pt_printers st = pt_printers (cv_printer c) ->
  forall ord ord', walk ord -> walk ord' -> forall w x, top_print ord st w x = top_print ord' st w x.
Proof.
  intros F E ord ord' P P' w x. unfold top_print, print_body.
  rewrite <- (find_perm (takes (class_of x)) (pt_printers st) (ord (pt_printers st)));
    [rewrite <- (find_perm (takes (class_of x)) (pt_printers st) (ord' (pt_printers st)))|..]; auto.
  all: rewrite E; intros; eapply takes_unique; eauto.
Qed.
