(** * PropertiesPrinter: C36, C37 - choice of the printer, printing statistics. *)
From Coq Require Import Permutation.
From Verif Require Import PyBase PyDict PyFloat PyVal BitsSpec FramerModel MsmModel DecoderModel DecoderSpec DecoderProofs
  PropertiesDecoder PropertiesEph MessageSpec MsmSpec MargoModel JsonModel PrinterModel PrinterSpec PrinterProofs TestData PropertiesJson MargoSpec PropertiesMargo.
Local Open Scope string_scope.
Local Open Scope list_scope.
Local Open Scope Z_scope.

Lemma exn_eq_dec : forall a b : exn, {a = b} + {a <> b}.
Proof. decide equality. Qed.

(** ** C36: exactly one printer *)

(** The factory makes a converter for the four modes, given a working directory; for any other
    mode it returns None. *)
Theorem C36_factory : forall mode env ctl,
  (In mode modes -> (exists c, factory mode true env ctl = Ok (Some c)) /\ factory mode false env ctl = Err EAssert) /\
  (~ In mode modes -> forall isdir, factory mode isdir env ctl = Ok None).
Proof.
  intros mode env ctl. split.
  - intros M. split; [now apply factory_exists|]. destruct M as [<-|[<-|[<-|[<-|[]]]]]; reflexivity.
  - intros N isdir. unfold factory, FACTORY, sget. cbn [dget fst snd]. unfold modes in N. cbn [In] in N.
    repeat match goal with |- context[String.eqb mode ?s] => destruct (String.eqb_spec mode s); [subst; tauto|] end. reflexivity.
Qed.
Print Assumptions C36_factory.

Lemma standard_calls mode calls : standard_history (is_bare mode) (map Register (decoders_of mode) ++ decoded_msgs calls).
Proof.
  intros io I. apply in_app_or in I. destruct I as [I|I].
  - apply in_map_iff in I. destruct I as (x & E & I). injection E as ->. unfold decoders_of in I.
    destruct (String.eqb_spec mode "MARGO") as [->|_]; [|exact I]. unfold standard. cbn [is_bare String.eqb Ascii.eqb Bool.eqb]. cbn in I |- *. tauto.
  - unfold decoded_msgs in I. apply in_flat_map in I. destruct I as (x & _ & I). destruct x; cbn in I; intuition discriminate.
Qed.

Lemma margo_force mode calls io : mode = "MARGO" -> in_force (map Register (decoders_of mode) ++ decoded_msgs calls) io ->
  io = sub_msm4567 false \/ io = sub_msm123 false.
Proof.
  intros -> I. apply force_registered in I. apply in_app_or in I. destruct I as [I|I].
  - cbn in I. intuition congruence.
  - unfold decoded_msgs in I. apply in_flat_map in I. destruct I as (x & _ & I). destruct x; cbn in I; intuition discriminate.
Qed.

Lemma announced_classes bare n cls : announced bare n = Some cls ->
  In cls (eph_classes ++ base_classes) \/
  In cls (if bare then ["BareObservablesMSM123"; "BareObservablesMSM4567"] else ["ObservablesMSM"]).
Proof.
  unfold announced. intros H.
  repeat match type of H with
  | (if ?b then _ else _) = _ => destruct b
  | Some (if ?b then _ else _) = _ => destruct b
  | Some (if ?b then (if ?d then _ else _) else _) = _ => destruct d
  end; try discriminate; injection H as <-; cbn; tauto.
Qed.

(** Which classes come out of the decoder in each mode. *)
Lemma decoded_class mode env ctl c ord w calls msg o : factory mode true env ctl = Ok (Some c) -> bytes_ok msg ->
  snd (cv_decode (fst (reached ord c w calls)) msg) = Ok (Some o) ->
  match mode with
  | "MARGO" => class_of o = "ObservablesMSM"
  | "JSON-B" => In (class_of o) (["BareObservablesMSM123"; "BareObservablesMSM4567"] ++ eph_classes ++ base_classes)
  | _ => In (class_of o) (["ObservablesMSM"] ++ eph_classes ++ base_classes)
  end.
Proof.
  intros F B D. destruct (factory_inv _ _ _ _ _ F) as (_ & M & _ & E & _ & _).
  pose proof (reached_decoder ord c w calls _ E) as R. unfold cv_decode in D. rewrite R in D.
  set (h := map Register (decoders_of mode) ++ decoded_msgs calls) in *.
  assert (A : answer h msg = Ok (Some o)) by (unfold answer; destruct (decode (after h) msg); exact D).
  destruct (C12_standard (is_bare mode) h msg (standard_calls mode calls) B) as [N|(o' & n & A' & HN & AN)]; [congruence|].
  assert (o' = o) as -> by congruence. pose proof (announced_classes _ _ _ AN) as C.
  destruct M as [<-|[<-|[<-|[<-|[]]]]]; cbn [is_bare String.eqb Ascii.eqb Bool.eqb] in *.
  - destruct (C12_result h msg o B A) as (io & n' & cls & f & I & HN' & Cl & Fd & Rf & _).
    destruct (margo_force "MARGO" calls io eq_refl I) as [->| ->]; cbn [sd_decode sub_msm4567 sub_msm123] in Fd;
      apply (f_equal (fun x => match x with Some g => g msg | None => Err EKey end)) in Fd; rewrite Rf in Fd;
      unfold wrap_msm in Fd; destruct (decode_msm17 false msg) as [[r|]|]; cbn in Fd; try discriminate;
      apply (f_equal (fun x => match x with Ok (Some g) => g | _ => o end)) in Fd; subst o;
      (destruct C as [C|C]; [exfalso; destruct r as [[]|]; cbn in C; intuition discriminate|]);
      destruct C as [C|[]]; now symmetry.
  - destruct C as [C|C]; apply in_or_app; [now right|]. cbn in C. now left.
  - destruct C as [C|C]; apply in_or_app; [now right|]. cbn in C. now left.
  - destruct C as [C|C]; apply in_or_app; [now right|]. cbn in C. now left.
Qed.

(** For every object the decoder returns, at any moment of a run, exactly one of the registered
    printers prints objects of its class. *)
Theorem C36_one_printer : forall mode env ctl c ord w calls msg o,
  factory mode true env ctl = Ok (Some c) -> bytes_ok msg ->
  let c' := fst (reached ord c w calls) in
  snd (cv_decode c' msg) = Ok (Some o) ->
  exists p, In p (pt_printers (cv_printer c')) /\
    forall q, In q (pt_printers (cv_printer c')) -> (prints q (class_of o) <-> q = p).
Proof.
  intros mode env ctl c ord w calls msg o F B c' D. unfold c' in *.
  pose proof (decoded_class _ _ _ _ _ _ _ _ _ F B D) as C.
  pose proof (reached_keeps ord c w calls) as K. destruct (reached ord c w calls) as [c1 w1]. cbn [fst] in *. rewrite K.
  assert (X : exists p, In p (pt_printers (cv_printer c)) /\ prints p (class_of o)).
  { destruct (factory_inv _ _ _ _ _ F) as (_ & M & _ & _ & PR & _).
    assert (Y : forall p, In (Ok p) (printers_of mode env ctl) -> In p (pt_printers (cv_printer c))).
    { intros p I. rewrite <- PR in I. apply in_map_iff in I. destruct I as (q & Eq & I). now injection Eq as <-. }
    assert (Hin : forall cls p, In (Ok p) (printers_of mode env ctl) -> prints p cls -> exists p, In p (pt_printers (cv_printer c)) /\ prints p cls)
      by (intros cls p I P; exists p; auto).
    unfold printers_of in Hin. destruct M as [<-|[<-|[<-|[<-|[]]]]]; cbn [String.eqb Ascii.eqb Bool.eqb] in Hin.
    - rewrite C. eapply Hin; [left; reflexivity|]. split; cbn; auto.
    - eapply Hin; [left; reflexivity|]. apply takes_prints. 
      assert (T : forallb (fun cls => existsb (String.eqb cls) (flat_map snd JSON_SPECS) && existsb (String.eqb cls) json_actual) (["ObservablesMSM"] ++ eph_classes ++ base_classes) = true) by (vm_compute; reflexivity).
      rewrite forallb_forall in T. exact (T _ C).
    - eapply Hin; [left; reflexivity|]. apply takes_prints. 
      assert (T : forallb (fun cls => existsb (String.eqb cls) (flat_map snd JSON_SPECS) && existsb (String.eqb cls) json_actual) (["BareObservablesMSM123"; "BareObservablesMSM4567"] ++ eph_classes ++ base_classes) = true) by (vm_compute; reflexivity).
      rewrite forallb_forall in T. exact (T _ C).
    - apply in_app_or in C. destruct C as [[C|[]]|C].
      + rewrite <- C. eapply Hin; [right; left; reflexivity|]. split; cbn; auto.
      + eapply Hin; [left; reflexivity|]. apply takes_prints.
        assert (T : forallb (fun cls => existsb (String.eqb cls) (flat_map snd JARGO_SPECS) && existsb (String.eqb cls) json_actual) (eph_classes ++ base_classes) = true) by (vm_compute; reflexivity).
        rewrite forallb_forall in T. exact (T _ C). }
  destruct X as (p & I & P). exists p. split; [exact I|]. intros q Iq. split; [|now intros ->].
  intros Q. eapply takes_unique; [exact F|exact Iq|exact I|..]; apply takes_prints; eassumption.
Qed.
Print Assumptions C36_one_printer.

Lemma top_print_found {W} ord st (w : W) x p f : find (takes (class_of x)) (ord (pt_printers st)) = Some p ->
  sp_print p = Some f ->
  snd (fst (top_print ord st w x)) = fst (f w x) /\
  snd (top_print ord st w x) = match snd (f w x) with Err EAssert => Ok tt | r => r end.
Proof.
  intros F S. unfold top_print, print_body. rewrite F, S. destruct (f w x) as [w' [[]|[]]]; cbn; auto.
Qed.

Definition print_of (fam : family) (env : os) (ctl : boxed_controls) (w : world) (x : rtcm_obj) : world * res unit :=
  match fam with
  | ObsFiles => let '(m, r) := margo_print (box_margo ctl) (env (w_calls w)) (w_margo w) x in
                ({| w_margo := m; w_json := w_json w; w_calls := S (w_calls w) |}, r)
  | JsonFiles => let '(j, r) := json_print (box_json ctl) (env (w_calls w)) (w_json w) x in
                 ({| w_margo := w_margo w; w_json := j; w_calls := S (w_calls w) |}, r)
  end.
Definition mode_classes (mode : string) (cls : string) : Prop :=
  match mode with
  | "MARGO" => cls = "ObservablesMSM"
  | "JSON-B" => In cls (["BareObservablesMSM123"; "BareObservablesMSM4567"] ++ eph_classes ++ base_classes)
  | _ => In cls (["ObservablesMSM"] ++ eph_classes ++ base_classes)
  end.
Lemma chosen_printer mode env ctl c o : factory mode true env ctl = Ok (Some c) -> mode_classes mode (class_of o) ->
  exists p, find (takes (class_of o)) (pt_printers (cv_printer c)) = Some p /\
    sp_print p = Some (print_of (family_of mode o) env ctl).
Proof.
  intros F C. destruct (factory_inv _ _ _ _ _ F) as (_ & M & _ & _ & PR & _).
  assert (Q : pt_printers (cv_printer c) = flat_map (fun r => match r with Ok x => [x] | Err _ => [] end) (printers_of mode env ctl)).
  { rewrite <- PR. clear. induction (pt_printers (cv_printer c)) as [|x l IH]; [reflexivity|]. cbn. now f_equal. }
  rewrite Q. clear PR Q F. unfold family_of. set (cls := class_of o) in *. clearbody cls. revert cls C.
  assert (J : forall spec T, forallb (fun cls => existsb (String.eqb cls) spec && existsb (String.eqb cls) json_actual) T = true ->
     forall cls, In cls T -> existsb (String.eqb cls) spec && existsb (String.eqb cls) json_actual = true).
  { intros spec T H cls I. rewrite forallb_forall in H. exact (H _ I). }
  destruct M as [<-|[<-|[<-|[<-|[]]]]]; unfold mode_classes; intros cls C.
  - subst cls. eexists. split; reflexivity.
  - assert (X := fun H => J (flat_map snd JSON_SPECS) _ H cls C). specialize (X ltac:(vm_compute; reflexivity)). rewrite andb_false_r.
    eexists. split; [|shelve]. unfold printers_of. cbn [String.eqb Ascii.eqb Bool.eqb flat_map app find].
    unfold json_subprinter. change (make_specs "JSON") with (Ok (A := list string) (flat_map snd JSON_SPECS)). cbn [negb bind app find]. unfold takes. cbn [sp_data sp_actual]. rewrite X. reflexivity.
    Unshelve. reflexivity.
  - assert (X := fun H => J (flat_map snd JSON_SPECS) _ H cls C). specialize (X ltac:(vm_compute; reflexivity)). rewrite andb_false_r.
    eexists. split; [|shelve]. unfold printers_of. cbn [String.eqb Ascii.eqb Bool.eqb flat_map app find].
    unfold json_subprinter. change (make_specs "JSON") with (Ok (A := list string) (flat_map snd JSON_SPECS)). cbn [negb bind app find]. unfold takes. cbn [sp_data sp_actual]. rewrite X. reflexivity.
    Unshelve. reflexivity.
  - rewrite andb_true_r. apply in_app_or in C. destruct C as [[<-|[]]|C].
    + eexists. split; reflexivity.
    + assert (X := fun H => J (flat_map snd JARGO_SPECS) _ H cls C). specialize (X ltac:(vm_compute; reflexivity)).
      assert (N : String.eqb cls "ObservablesMSM" = false).
      { destruct (String.eqb_spec cls "ObservablesMSM") as [E|]; [|reflexivity]. rewrite E in C. cbn in C. intuition discriminate. }
      rewrite N. eexists. split; [|shelve]. unfold printers_of. cbn [String.eqb Ascii.eqb Bool.eqb flat_map app find].
      unfold json_subprinter at 1. change (make_specs "JARGO") with (Ok (A := list string) (flat_map snd JARGO_SPECS)). cbn [negb bind app find]. unfold takes at 1. cbn [sp_data sp_actual]. rewrite X. reflexivity.
      Unshelve. reflexivity.
Qed.

(** Where the object goes: observations to the MARGO files in the modes MARGO and JARGO,
    everything else to the JSON files. *)
Theorem C36_delivery : forall mode env ctl c ord w calls msg o,
  factory mode true env ctl = Ok (Some c) -> bytes_ok msg -> walk ord ->
  let '(c', w') := reached ord c w calls in
  snd (cv_decode c' msg) = Ok (Some o) ->
  let '(_, w2, r) := cv_print ord c' w' o in
  let can := env (w_calls w') in
  let reported (r0 : res unit) := match r0 with Err EAssert => Ok tt | _ => r0 end in
  match family_of mode o with
  | ObsFiles => let '(m, r0) := margo_print (box_margo ctl) can (w_margo w') o in
                w_margo w2 = m /\ w_json w2 = w_json w' /\ r = reported r0
  | JsonFiles => let '(j, r0) := json_print (box_json ctl) can (w_json w') o in
                 w_json w2 = j /\ w_margo w2 = w_margo w' /\ r = reported r0
  end.
Proof.
  intros mode env ctl c ord w calls msg o F B P.
  pose proof (decoded_class mode env ctl c ord w calls msg o F B) as C.
  pose proof (reached_keeps ord c w calls) as K. destruct (reached ord c w calls) as [c1 w1]. cbn [fst] in *.
  intros D. specialize (C D). unfold cv_print.
  rewrite (top_print_order mode env ctl c (cv_printer c1) F K ord (fun l => l) P (fun l => Permutation_refl l)).
  pose proof (chosen_printer mode env ctl c o F C) as (p & FP & SP). rewrite <- K in FP.
  pose proof (top_print_found (fun l => l) (cv_printer c1) w1 o p _ FP SP) as (T1 & T2).
  destruct (top_print _ _ _ _) as [[st w2] r]. cbn [fst snd] in T1, T2. unfold print_of in T1, T2.
  destruct (family_of mode o).
  - destruct (margo_print _ _ _ _) as [m r0]. cbn [fst snd] in T1, T2. subst w2 r. cbn. destruct r0 as [[]|[]]; auto.
  - destruct (json_print _ _ _ _) as [m r0]. cbn [fst snd] in T1, T2. subst w2 r. cbn. destruct r0 as [[]|[]]; auto.
Qed.
Print Assumptions C36_delivery.

(** The order in which the set of printers is walked has no influence on a run, whatever is
    printed. *)
Theorem C36_order_irrelevant : forall mode env ctl c ord ord' w calls,
  factory mode true env ctl = Ok (Some c) -> walk ord -> walk ord' ->
  reached ord c w calls = reached ord' c w calls /\
  (forall x, cv_print ord (fst (reached ord c w calls)) (snd (reached ord c w calls)) x =
             cv_print ord' (fst (reached ord c w calls)) (snd (reached ord c w calls)) x) /\
  cv_release ord (fst (reached ord c w calls)) (snd (reached ord c w calls)) =
  cv_release ord' (fst (reached ord c w calls)) (snd (reached ord c w calls)).
Proof.
  intros mode env ctl c ord ord' w calls F P P'.
  assert (S : forall calls w x, let '(c1, w1) := reached ord c w calls in
     cv_print ord c1 w1 x = cv_print ord' c1 w1 x).
  { intros l v x. pose proof (reached_keeps ord c v l) as K. destruct (reached ord c v l) as [c1 w1]. unfold cv_print.
    now rewrite (top_print_order mode env ctl c (cv_printer c1) F K ord ord' P P'). }
  assert (R : reached ord c w calls = reached ord' c w calls).
  { induction calls as [|e calls IH] using rev_ind; [reflexivity|]. rewrite !reached_snoc, <- IH.
    destruct e as [buf|msg|x]; [reflexivity..|]. specialize (S calls w x). destruct (reached ord c w calls) as [c1 w1].
    cbn [cstep fst snd]. now rewrite S. }
  split; [exact R|]. specialize (S calls w). destruct (reached ord c w calls) as [c1 w1] eqn:RE. cbn [fst snd]. split; [exact S|].
  pose proof (reached_keeps ord c w calls) as K. rewrite RE in K. unfold cv_release, top_close. rewrite K.
  destruct (factory_inv _ _ _ _ _ F) as (_ & M & _ & _ & PR & _).
  assert (Q : pt_printers (cv_printer c) = flat_map (fun r => match r with Ok x => [x] | Err _ => [] end) (printers_of mode env ctl)).
  { rewrite <- PR. clear. induction (pt_printers (cv_printer c)) as [|x l IH]; [reflexivity|]. cbn. now f_equal. }
  rewrite Q. clear - M P P'.
  assert (C : forall l, match printers_of mode env ctl with
     | [Ok p] => l = [p] | [Ok p; Ok q] => l = [p; q] \/ l = [q; p] | _ => True end ->
     close_all l w1 = close_all (flat_map (fun r => match r with Ok x => [x] | Err _ => [] end) (printers_of mode env ctl)) w1).
  { intros l H. unfold printers_of in *. destruct M as [<-|[<-|[<-|[<-|[]]]]]; cbn in H.
    1,2,3: rewrite H; reflexivity. destruct H as [-> | ->]; reflexivity. }
  rewrite (C (ord _)), (C (ord' _)); [reflexivity|..].
  all: unfold printers_of; destruct M as [<-|[<-|[<-|[<-|[]]]]]; cbn.
  all: first [apply Permutation_length_1_inv|apply Permutation_length_2_inv]; solve [apply P|apply P'].
Qed.
Print Assumptions C36_order_irrelevant.

(** In the mode JARGO the two printers never write the same file. *)
Theorem C36_jargo_files_distinct : forall num s g p sgn t,
  zget JSON_SPEC num = Some s -> json_path s <> obs_path g p sgn t.
Proof.
  intros num s g p sgn t S E.
  assert (F : forallb (fun e => String.eqb (substring (String.length (json_path (snd e)) - 4) 4 (json_path (snd e))) "json") JSON_SPEC = true)
    by (vm_compute; reflexivity).
  rewrite forallb_forall in F. specialize (F _ (dget_In Z.eqb z_eqb_spec _ _ _ S)). cbn [snd] in F. apply String.eqb_eq in F.
  rewrite E in F. clear - F.
  assert (X : forall a, exists pre, (a ++ obs_file g p sgn t)%string = (pre ++ ".obs")%string).
  { intros a. unfold obs_file. exists (a ++ gnss_letter g ++ param_letter p ++ sgn ++ "_" ++ type_name t)%string.
    assert (AA : forall x y z : string, ((x ++ y) ++ z)%string = (x ++ y ++ z)%string) by (induction x; intros; cbn; congruence).
    now rewrite !AA. }
  destruct (X (gnss_dir g ++ "/")%string) as (pre & Y).
  assert (AA : forall x y z : string, ((x ++ y) ++ z)%string = (x ++ y ++ z)%string) by (induction x; intros; cbn; congruence).
  rewrite AA in Y. change (gnss_dir g ++ "/" ++ obs_file g p sgn t)%string with (obs_path g p sgn t) in Y. rewrite Y in F.
  assert (L : forall q r, substring (String.length (q ++ r) - String.length r) (String.length r) (q ++ r) = r).
  { intros q r. assert (LL : String.length (q ++ r) = (String.length q + String.length r)%nat) by (induction q; cbn; congruence).
    rewrite LL. replace (String.length q + String.length r - String.length r)%nat with (String.length q) by lia. clear LL.
    induction q as [|a q IH]; [|exact IH]. cbn. induction r as [|b r IH]; [reflexivity|]. cbn. now rewrite IH. }
  specialize (L pre ".obs"). cbn [String.length] in L. rewrite L in F. discriminate.
Qed.
Print Assumptions C36_jargo_files_distinct.

Definition sample_os : os := fun _ _ => true.
Definition sample_box : boxed_controls := {| box_margo := default_margo; box_json := sample_controls true |}.
Definition sample_mode_classes (mode : string) : list (option string) :=
  match factory mode true sample_os sample_box with
  | Ok (Some c) => map (fun raw => match snd (cv_decode c (first_frame raw)) with
                                  | Ok (Some o) => Some (class_of o) | _ => None end) [sample_1005; sample_1077]
  | _ => []
  end.
Example C36_nonvacuous :
  map sample_mode_classes modes =
  [[None; Some "ObservablesMSM"]; [Some "BaseRP"; Some "ObservablesMSM"];
   [Some "BaseRP"; Some "BareObservablesMSM4567"]; [Some "BaseRP"; Some "ObservablesMSM"]] /\
  walk (W := world) (@rev _) /\
  (exists c, factory "JARGO" true sample_os sample_box = Ok (Some c) /\ length (pt_printers (cv_printer c)) = 2%nat).
Proof.
  split; [vm_compute; reflexivity|]. split; [intros l; apply Permutation_rev|]. eexists. split; reflexivity.
Qed.

(** ** C37: printing statistics *)

(** After any history of format changes, registrations and print calls, with any sub-printers,
    attempts counts the print calls for which a printer was registered, errors those of them in
    which that printer raised; an assertion is swallowed, anything else reaches the caller. *)
Theorem C37_statistics : forall W (ord : list (subprinter W) -> list (subprinter W)) w h,
  walk ord -> identified h ->
  let st := fst (pafter ord w h) in ptally ord w h (pt_attempts st) (pt_errors st).
Proof.
  intros W ord w h P ID. cbv zeta. induction h as [|e h IH] using rev_ind; [constructor|].
  assert (IDh : identified h) by (intros x y I J; apply ID; apply in_or_app; now left). specialize (IH IDh).
  unfold pt_errors in *. destruct e as [f|io|x].
  - rewrite pafter_snoc. cbn. now constructor.
  - rewrite pafter_snoc. cbn [pstep fst]. unfold add_subprinter. destruct (negb _); [now constructor|].
    destruct (sp_print io), (sp_close io); try (now constructor). destruct (zlen _ =? 0); cbn; now constructor.
  - set (st := fst (pafter ord w h)) in *. set (v := snd (pafter ord w h)).
    assert (A : forall st' v' r, top_print ord st v x = (st', v', r) -> pafter ord w (h ++ [Print x]) = (st', v') /\ panswer ord w h x = r).
    { intros st' v' r E. rewrite pafter_snoc. unfold panswer. cbn [pstep]. fold st v. rewrite E. auto. }
    unfold top_print, print_body in A. destruct (find (takes (class_of x)) (ord (pt_printers st))) as [p|] eqn:F.
    + apply find_some in F. destruct F as (I & T). apply takes_prints in T.
      assert (TK : taken h p) by (apply (printers_state ord w h IDh); eapply Permutation_in; [apply Permutation_sym, P|exact I]).
      assert (SP : exists f, sp_print p = Some f).
      { destruct TK as (b & a & _ & _ & (S & _)). destruct (sp_print p); [eauto|congruence]. }
      destruct SP as (f & SP). rewrite SP in A. destruct (f v x) as [v' r] eqn:Ef.
      assert (DL : delivered ord w h x p v' r) by (split; [exact TK|]; split; [exact T|]; exists f; auto).
      destruct r as [[]|y].
      * destruct (A _ _ _ eq_refl) as (A1 & A2). rewrite A1. cbn [fst pt_attempts pt_succeeded].
        replace (pt_attempts st + 1 - (pt_succeeded st + 1)) with (pt_attempts st - pt_succeeded st) by lia.
        eapply ptally_printed; [exact IH|exact DL|now rewrite A1|exact A2].
      * destruct (exn_eq_dec y EAssert) as [->|NE].
        -- destruct (A _ _ _ eq_refl) as (A1 & A2). rewrite A1. cbn [fst pt_attempts pt_succeeded].
           replace (pt_attempts st + 1 - pt_succeeded st) with (pt_attempts st - pt_succeeded st + 1) by lia.
           eapply ptally_rejected; [exact IH|exact DL|now rewrite A1|exact A2].
        -- assert (A' : pafter ord w (h ++ [Print x]) = ({| pt_format := pt_format st; pt_printers := pt_printers st;
              pt_attempts := pt_attempts st + 1; pt_succeeded := pt_succeeded st |}, v') /\ panswer ord w h x = Err y)
             by (apply A; destruct y; try reflexivity; now destruct NE).
           destruct A' as (A1 & A2). rewrite A1. cbn [fst pt_attempts pt_succeeded].
           replace (pt_attempts st + 1 - pt_succeeded st) with (pt_attempts st - pt_succeeded st + 1) by lia.
           eapply ptally_raised; [exact IH|exact DL|exact NE|now rewrite A1|exact A2].
    + destruct (A _ _ _ eq_refl) as (A1 & A2). rewrite A1. cbn [fst]. apply ptally_nobody; [exact IH| |now rewrite A1|exact A2].
      intros io TK PR. apply takes_prints in PR. apply (printers_state ord w h IDh) in TK.
      pose proof (find_none _ _ F io (Permutation_in _ (P _) TK)). congruence.
Qed.
Print Assumptions C37_statistics.

Theorem C37_bounds : forall W (ord : list (subprinter W) -> list (subprinter W)) w h a e,
  ptally ord w h a e -> 0 <= e <= a.
Proof. induction 1; lia. Qed.
Print Assumptions C37_bounds.

(** The sub-printers that are offered are taken exactly when a format is in force and they are
    complete; the answer tells. *)
Theorem C37_registration : forall W (ord : list (subprinter W) -> list (subprinter W)) w h io,
  snd (add_subprinter (fst (pafter ord w h)) io) = true <-> format_set h /\ printer_ok io.
Proof.
  intros W ord w h io. rewrite <- (format_state ord w h). unfold add_subprinter, printer_ok.
  destruct (pt_exist (fst (pafter ord w h))); cbn [negb]; [|cbn; split; [discriminate|intros (X & _); discriminate X]].
  destruct (sp_print io); [|cbn; split; [discriminate|intros (_ & X & _); congruence]].
  destruct (sp_close io); [|cbn; split; [discriminate|intros (_ & _ & X & _); congruence]].
  destruct (sp_actual io) as [|a l]; [cbn; split; [discriminate|intros (_ & _ & _ & X); congruence]|].
  destruct (zlen (a :: l) =? 0) eqn:Z; [unfold zlen in Z; cbn [length] in Z; lia|]. cbn [snd].
  split; [intros _|auto]. split; [reflexivity|]. split; [discriminate|]. split; discriminate.
Qed.
Print Assumptions C37_registration.

(** Concrete history: registration before the format is refused; a printer that rejects positions
    and dies on texts. *)
Definition moody : subprinter (list string) :=
  {| sp_id := 0; sp_format := "JSON";
     sp_print := Some (fun w x => (class_of x :: w,
       if String.eqb (class_of x) "BaseRP" then Err EAssert
       else if String.eqb (class_of x) "BaseTS" then Err EOS else Ok tt));
     sp_close := Some (fun w => (w, Ok tt));
     sp_data := ["BaseRP"; "BaseTS"; "ObservablesMSM"]; sp_actual := ["BaseRP"; "BaseTS"; "ObservablesMSM"; "EphGPS"] |}.
Definition sample_prints : list (pevent (list string)) :=
  [AddPrinter moody; Print (sample_object sample_1005); SetFormat "JSON"; AddPrinter moody; AddPrinter moody;
   Print (sample_object sample_1005); Print (sample_object sample_1029); Print (sample_object sample_1077)].
Example C37_nonvacuous : identified sample_prints /\
  (let '(st, w) := pafter (fun l => l) [] sample_prints in
   (pt_attempts st, pt_errors st, w) = (3, 2, ["ObservablesMSM"; "BaseTS"; "BaseRP"])) /\
  panswer (fun l => l) [] (firstn 6 sample_prints) (sample_object sample_1029) = Err EOS.
Proof.
  split; [|split; vm_compute; reflexivity]. intros io io' I J _.
  cbn [In sample_prints] in I, J. intuition congruence.
Qed.
