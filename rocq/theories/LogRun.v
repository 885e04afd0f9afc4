(** * LogRun: the lines about printed objects and about a whole conversion, for PropertiesLog. *)
From Coq Require Import Permutation.
From Flocq Require Import BinarySingleNaN.
From Verif Require Import PyBase PyDict PyFloat PyVal PyFormat FormatSpec FormatProofs BitsSpec BitsModel BitsProofs CleanProofs MessageSpec FramerModel FramerSpec FramerProofs TablesModel
  MsmModel MsmSpec MsmProofs MsmTheorems MsmScaleSpec MsmScaleTheorems
  DecoderModel DecoderSpec DecoderProofs PropertiesDecoder
  JsonModel JsonFileSpec JsonFiles JsonDecoded PropertiesJson MargoModel MargoSpec MargoProofs MargoFiles PropertiesMargo PrinterModel PrinterSpec PrinterProofs PropertiesPrinter MainModel MainSpec MainProofs
  ControlsModel SessionModel LogModel LogSpec LogProofs LogFrames.
Local Open Scope string_scope.
Local Open Scope list_scope.
Local Open Scope Z_scope.

(** ** Observation files *)
Section Margo.
Context (path_text error_text : string -> text).

Lemma append_open ctl ok st f line st' r f' : append ctl ok st f line = (st', r) -> f' <> f -> is_open st' f' = is_open st f'.
Proof.
  intros H N. apply (f_equal fst) in H. cbn [fst] in H. subst st'. unfold append, create_ofile. destruct (is_open st f); cbn [negb].
  { destruct (margo_path f); reflexivity. }
  destruct (margo_path f) as [q|]; [|reflexivity]. destruct (ok f); [|reflexivity].
  assert (X : forall l, existsb (String.eqb f') (f :: l) = existsb (String.eqb f') l).
  { intros l. cbn [existsb]. destruct (String.eqb_spec f' f); [congruence|reflexivity]. }
  destruct (make_header ctl f) as [[h1 h2]|]; cbn [fst]; unfold is_open, margo_write; cbn [mg_open]; apply X.
Qed.

Lemma rows_told ctl ok g t : controls_ok ctl -> forall pbuf st,
  MargoFiles.inv st -> NoDup (map fst pbuf) -> Forall (named g t) (map fst pbuf) ->
  rows_lines path_text error_text ctl ok st pbuf =
  flat_map (not_created path_text error_text) (filter (fun f => negb (is_open st f) && negb (ok f)) (map fst pbuf)).
Proof.
  intros C. induction pbuf as [|[f row] r IH]; intros st I ND F; [reflexivity|].
  cbn [map fst] in ND, F. inversion ND as [|? ? NI ND']; subst. inversion F as [|? ? (p0 & s0 & K0 & ->) F']; subst.
  cbn [rows_lines map fst filter]. rewrite name_param, format_ok, path_ok.
  destruct (header_ok ctl g p0 s0 t C K0) as (h1 & h2 & HH & _). fold (row_text p0 row).
  destruct (append_key ctl ok st g p0 s0 t (row_text p0 row) h1 h2 K0 I HH) as (st1 & b & E & I1 & S1 & O1).
  rewrite E, (IH st1 I1 ND' F'). rewrite (filter_ext_in (fun f => negb (is_open st1 f) && negb (ok f)) (fun f => negb (is_open st f) && negb (ok f))).
  2:{ intros f If. rewrite (append_open _ _ _ _ _ _ _ f E); [reflexivity|]. intros ->. contradiction. }
  cbn [is_ok]. rewrite andb_true_r. destruct (negb (is_open st _) && negb (ok _)); reflexivity.
Qed.

Lemma margo_told ctl hist st e : controls_ok ctl -> MargoFiles.inv st -> MargoFiles.good ctl hist st -> event_ok e ->
  exists fs, margo_lines path_text error_text ctl (pe_can_create e) st (OMsm (MsmScaled (pe_obs e))) = flat_map (not_created path_text error_text) fs /\
    NoDup fs /\
    (forall f, In f fs <-> exists p sgn, In sgn (map snd (signal_codes (pe_gnss e))) /\ f = obs_file (pe_gnss e) p sgn (pe_type e) /\
       goes_here ctl (pe_gnss e) p sgn (pe_type e) e = true /\
       MargoSpec.recorded ctl (pe_gnss e) p sgn (pe_type e) (hist ++ [e]) = []).
Proof.
  intros C I G OK. destruct e as [g t x ok]. unfold event_ok in OK. cbn [pe_gnss pe_type pe_obs pe_can_create] in *.
  cbn [margo_lines]. rewrite (to_print_buffer_ok ctl g t x C OK). destruct (buffer_names ctl g t x OK) as (ND & NM).
  rewrite (rows_told ctl ok g t C _ st I ND NM). eexists. split; [reflexivity|]. split; [now apply NoDup_filter|].
  intros f. rewrite filter_In. 
  assert (KEY : forall p sgn, known g sgn -> In (obs_file g p sgn t) (map fst (buffer_of ctl g t x)) <->
     goes_here ctl g p sgn t {| pe_gnss := g; pe_type := t; pe_obs := x; pe_can_create := ok |} = true).
  { intros p sgn K. assert (Z1 : sget (buffer_of ctl g t x) (obs_file g p sgn t) <> None <-> In (obs_file g p sgn t) (map fst (buffer_of ctl g t x))).
    { split.
      - intros X. destruct (in_dec string_dec (obs_file g p sgn t) (map fst (buffer_of ctl g t x))) as [Y|Y]; [exact Y|].
        exfalso. apply X. apply dget_None; [apply String.eqb_eq|exact Y].
      - intros X Y. apply dget_None in Y; [contradiction|apply String.eqb_eq]. }
    rewrite <- Z1. rewrite (buffer_get ctl g t x p sgn OK (code_length g sgn K)). unfold goes_here. cbn [pe_gnss pe_type pe_obs].
    destruct (gnss_eq_dec g g); [|congruence]. destruct (type_eq_dec t t); [|congruence]. cbn [andb].
    destruct (contributes ctl (ob_obs x) p sgn); split; congruence. }
  assert (REC : forall p sgn, known g sgn -> goes_here ctl g p sgn t {| pe_gnss := g; pe_type := t; pe_obs := x; pe_can_create := ok |} = true ->
     negb (is_open st (obs_file g p sgn t)) && negb (ok (obs_file g p sgn t)) = true <->
     MargoSpec.recorded ctl g p sgn t (hist ++ [{| pe_gnss := g; pe_type := t; pe_obs := x; pe_can_create := ok |}]) = []).
  { intros p sgn K GH. specialize (G g p sgn t K). pose proof (proj1 I g p sgn t K) as O. unfold MargoSpec.recorded in *. rewrite filter_app. cbn [filter]. rewrite GH.
    rewrite drop_until_snoc. cbn [pe_can_create].
    destruct (drop_until _ (filter _ hist)) as [|e0 rest].
    - destruct (is_open st (obs_file g p sgn t)) eqn:IO; [exfalso; now apply (proj1 O)|]. cbn [negb andb].
      destruct (ok (obs_file g p sgn t)); cbn [negb]; split; congruence.
    - destruct G as (c & Hc & _). assert (IO : is_open st (obs_file g p sgn t) = true) by (apply O; congruence). rewrite IO. cbn. split; congruence. }
  split.
  - intros [Iz O]. rewrite Forall_forall in NM. destruct (NM _ Iz) as (p & sgn & K & ->). exists p, sgn. split; [exact K|]. split; [reflexivity|].
    pose proof (proj1 (KEY p sgn K) Iz) as GH. split; [exact GH|]. now apply REC.
  - intros (p & sgn & K & -> & GH & R). split; [now apply KEY|]. now apply REC.
Qed.
End Margo.

(** ** The printer of an object *)
Definition is_obs (fam : family) : bool := match fam with ObsFiles => true | JsonFiles => false end.
Lemma chosen_format mode env ctl c o : factory mode true env ctl = Ok (Some c) -> mode_classes mode (class_of o) ->
  exists p, find (takes (class_of o)) (pt_printers (cv_printer c)) = Some p /\
    sp_print p = Some (print_of (family_of mode o) env ctl) /\ is_margo p = is_obs (family_of mode o).
Proof.
  intros F C. destruct (factory_inv _ _ _ _ _ F) as (_ & M & _ & _ & PR & _).
  assert (Q : pt_printers (cv_printer c) = flat_map (fun r => match r with Ok x => [x] | Err _ => [] end) (printers_of mode env ctl)).
  { rewrite <- PR. clear. induction (pt_printers (cv_printer c)) as [|x l IH]; [reflexivity|]. cbn. now f_equal. }
  rewrite Q. clear PR Q F. unfold family_of. set (cls := class_of o) in *. clearbody cls. revert cls C.
  assert (J : forall spec T, forallb (fun cls => existsb (String.eqb cls) spec && existsb (String.eqb cls) json_actual) T = true ->
     forall cls, In cls T -> existsb (String.eqb cls) spec && existsb (String.eqb cls) json_actual = true).
  { intros spec T H cls I. rewrite forallb_forall in H. exact (H _ I). }
  destruct M as [<-|[<-|[<-|[<-|[]]]]]; unfold mode_classes; intros cls C.
  - subst cls. eexists. split; [reflexivity|]. split; reflexivity.
  - assert (X := fun H => J (flat_map snd JSON_SPECS) _ H cls C). specialize (X ltac:(vm_compute; reflexivity)). rewrite andb_false_r.
    eexists. split; [|shelve]. unfold printers_of. cbn [String.eqb Ascii.eqb Bool.eqb flat_map app find].
    unfold json_subprinter. change (make_specs "JSON") with (Ok (A := list string) (flat_map snd JSON_SPECS)). cbn [negb bind app find]. unfold takes. cbn [sp_data sp_actual]. rewrite X. reflexivity.
    Unshelve. split; reflexivity.
  - assert (X := fun H => J (flat_map snd JSON_SPECS) _ H cls C). specialize (X ltac:(vm_compute; reflexivity)). rewrite andb_false_r.
    eexists. split; [|shelve]. unfold printers_of. cbn [String.eqb Ascii.eqb Bool.eqb flat_map app find].
    unfold json_subprinter. change (make_specs "JSON") with (Ok (A := list string) (flat_map snd JSON_SPECS)). cbn [negb bind app find]. unfold takes. cbn [sp_data sp_actual]. rewrite X. reflexivity.
    Unshelve. split; reflexivity.
  - rewrite andb_true_r. apply in_app_or in C. destruct C as [[<-|[]]|C].
    + eexists. split; [reflexivity|]. split; reflexivity.
    + assert (X := fun H => J (flat_map snd JARGO_SPECS) _ H cls C). specialize (X ltac:(vm_compute; reflexivity)).
      assert (N : String.eqb cls "ObservablesMSM" = false).
      { destruct (String.eqb_spec cls "ObservablesMSM") as [E|]; [|reflexivity]. rewrite E in C. cbn in C. intuition discriminate. }
      rewrite N. eexists. split; [|shelve]. unfold printers_of. cbn [String.eqb Ascii.eqb Bool.eqb flat_map app find].
      unfold json_subprinter at 1. change (make_specs "JARGO") with (Ok (A := list string) (flat_map snd JARGO_SPECS)). cbn [negb bind app find]. unfold takes at 1. cbn [sp_data sp_actual]. rewrite X. reflexivity.
      Unshelve. split; reflexivity.
Qed.

(** ** Lines of messages processed one after the other *)
Section Told.
Context (why : list Z -> exn -> text) (path_text error_text : string -> text) (assertion : rtcm_obj -> text) (class_text : string -> text).
Context (ord : list (subprinter world) -> list (subprinter world)) (mode : string) (env : os) (ctl : boxed_controls).
Notation dlines := (decode_lines why (is_bare mode)).
Notation plines := (print_lines path_text error_text assertion class_text ord env (box_margo ctl)).

Fixpoint proc_lines (s : dpw) (msgs : list (list Z)) : list line :=
  match msgs with
  | [] => []
  | m :: r =>
      let '(d, p, w) := s in
      dlines d m ++
      match decode d m with
      | (Err _, _) => []
      | (Ok None, d) => proc_lines (d, p, w) r
      | (Ok (Some o), d) =>
          plines p w o ++
          match top_print ord p w o with
          | (p, w, Ok _) => proc_lines (d, p, w) r
          | (p, w, Err _) => []
          end
      end
  end.
Lemma proc_lines_app a : forall s s' b, proc ord s a = (s', Ok tt) -> proc_lines s (a ++ b) = proc_lines s a ++ proc_lines s' b.
Proof.
  induction a as [|m a IH]; intros [[d p] w] s' b H; cbn [app proc_lines proc] in *; [injection H as <-; reflexivity|].
  rewrite <- !app_assoc. f_equal. destruct (decode d m) as [[[o|]|e] d']; [|apply IH; exact H|discriminate].
  rewrite <- app_assoc. f_equal. destruct (top_print ord p w o) as [[p' w'] [[]|e]]; [apply IH; exact H|discriminate].
Qed.

Lemma print_told c p w objs o hist rs fs f : factory mode true env ctl = Ok (Some c) -> walk ord -> controls_ok (box_margo ctl) ->
  Forall valid_frame fs -> objs = objects mode fs -> valid_frame f -> answer (map Register (decoders_of mode)) f = Ok (Some o) ->
  pt_printers p = pt_printers (cv_printer c) -> w_calls w = length objs ->
  print_session (box_json ctl) json_init (delivered_to JsonFiles mode env 0 objs) = (w_json w, rs) ->
  Forall2 is_event hist (delivered_to ObsFiles mode env 0 objs) -> Forall event_ok hist -> print_all (box_margo ctl) margo_init hist = (w_margo w, Ok tt) ->
  printed path_text error_text assertion mode env ctl objs o (plines p w o).
Proof.
  intros F O C V -> Vf A0 PP WC J HE HO HP. pose proof (valid_frame_bytes f Vf) as B.
  pose proof (answer_class mode env ctl c f o F B A0) as MC.
  destruct (chosen_format mode env ctl c o F MC) as (q & Q & S & IM).
  unfold print_lines. rewrite PP.
  rewrite <- (find_perm (takes (class_of o)) (pt_printers (cv_printer c)) (ord (pt_printers (cv_printer c)))) by (try apply O; intros; eapply takes_unique; eauto).
  rewrite Q, S, IM. clear Q S IM.
  set (objs := objects mode fs) in *.
  destruct (family_of mode o) eqn:FA; cbn [is_obs print_of].
  - assert (CO : class_of o = "ObservablesMSM").
    { unfold family_of in FA. destruct (String.eqb_spec (class_of o) "ObservablesMSM") as [E|]; [exact E|discriminate]. }
    destruct (answer_scaled mode f o Vf A0 CO) as (g & t & r & -> & PR).
    set (e := {| pe_gnss := g; pe_type := t; pe_obs := r; pe_can_create := env (length objs) |}).
    assert (HO' : Forall event_ok (hist ++ [e])) by (apply Forall_app; split; [exact HO|apply Forall_cons; [exact PR|constructor]]).
    assert (G0 : MargoFiles.good (box_margo ctl) [] margo_init) by (intros g' p' sgn' t' K'; cbn; reflexivity).
    destruct (print_all_ok (box_margo ctl) C hist [] margo_init inv_init G0 HO) as (st & E & I & G). cbn [app] in G.
    assert (st = w_margo w) as -> by congruence.
    destruct (margo_told path_text error_text (box_margo ctl) hist (w_margo w) e C I G PR) as (files & L & ND & IFF).
    destruct (print_step (box_margo ctl) hist (w_margo w) e C I G PR) as (st' & MP & _).
    cbn [e pe_obs pe_can_create] in L, MP. rewrite WC, MP, L, app_nil_r.
    apply (printed_obs path_text error_text assertion mode env ctl objs _ hist e files); auto.
    rewrite delivered_snoc, FA. cbn [same_family]. rewrite Nat.add_0_l.
    apply Forall2_app; [exact HE|]. constructor; [|constructor]. split; reflexivity.
  - pose proof (delivered_ok JsonFiles (box_json ctl) mode env fs 0 V) as DOK. fold objs in DOK. rewrite WC.
    destruct (json_print (box_json ctl) (env (length objs)) (w_json w) o) as [st' r] eqn:JP.
    destruct (C33_refused_only (box_json ctl) json_init _ _ _ o _ _ _ eq_refl DOK J (decoded_ok _ mode o (ex_intro _ f (conj Vf A0))) JP)
      as (num & s & NO & SP & R).
    assert (R' : r = Ok tt \/ r = Err EAssert) by (destruct R as [R|(R & _)]; auto).
    pose proof (printed_json path_text error_text assertion mode env ctl objs o st' rs r FA) as PJ.
    assert (LL : (match r with Err EAssert => [(LError, assertion o)] | _ => [] end) = match r with Ok _ => [] | Err _ => [(LError, assertion o)] end).
    { destruct R' as [-> | ->]; reflexivity. }
    cbn [app]. match goal with |- printed _ _ _ _ _ _ _ _ ?x => replace x with (match r with Ok _ => [] | Err _ => [(LError, assertion o)] end) end.
    apply PJ. rewrite delivered_snoc, FA. cbn [same_family]. rewrite Nat.add_0_l, print_session_app, J. cbn [print_session]. now rewrite JP.
Qed.

Lemma frames_told c frames : factory mode true env ctl = Ok (Some c) -> walk ord -> controls_ok (box_margo ctl) -> Forall valid_frame frames ->
  told path_text error_text assertion mode env ctl frames (proc_lines (cv_decoder c, cv_printer c, world_init) frames).
Proof.
  intros F O C. induction frames as [|f frames IH] using rev_ind; intros V; [constructor|].
  apply Forall_app in V. destruct V as [V Vf]. assert (Vf' : valid_frame f) by (now inversion Vf). clear Vf. specialize (IH V).
  destruct (run_state mode env ctl c ord frames F O C V) as (p & w & P & PP & WC & PA & (rs & J & JE) & (hist & HE & HO & HP)).
  pose proof (valid_frame_bytes f Vf') as B. rewrite (proc_lines_app _ _ _ _ P). cbn [proc_lines].
  pose proof (frame_story why mode frames f Vf') as ST.
  pose proof (answer_same (map Register (decoders_of mode)) frames f) as A0. unfold answer at 1 in A0.
  destruct (decode (after (map Register (decoders_of mode) ++ map Decode frames)) f) as [rr d] eqn:D. cbn [fst snd] in *. symmetry in A0.
  destruct (C12_standard _ _ _ (mode_standard mode) B) as [N|(o & n & A' & _ & _)].
  - assert (rr = Ok None) as -> by congruence. rewrite app_nil_r. apply told_nothing; [exact IH|exact ST|]. intros o X. congruence.
  - assert (rr = Ok (Some o)) as -> by congruence.
    assert (Z : match top_print ord p w o with (p', w', Ok _) => [] | (p', w', Err _) => [] end = @nil line) by (destruct (top_print ord p w o) as [[p' w'] [[]|e]]; reflexivity).
    rewrite Z, app_nil_r. apply told_object with (o := o); [exact IH|exact ST|exact A0|].
    eapply (print_told c p w _ o hist rs frames f); eauto.
Qed.
End Told.

(** ** Dropping the lines *)
Section Erase.
Context (why : list Z -> exn -> text) (path_text error_text : string -> text) (assertion : rtcm_obj -> text) (class_text : string -> text).
Context (ord : list (subprinter world) -> list (subprinter world)) (faults : nat -> option fault) (bare : bool) (env : os) (ctl : margo_controls).
Context (fpath : text) (exn_text : exn -> text) (stray : nat -> list line) (missing : bool).

Definition erased {A} (x : lact A) (y : act A) : Prop := forall s l, (fst (fst (x s l)), snd (x s l)) = y s.
Lemma erased_ret {A} (a : A) : erased (lret a) (ret a).
Proof. intros s l. reflexivity. Qed.
Lemma erased_raise {A} e : erased (@lraise A e) (raise e).
Proof. intros s l. reflexivity. Qed.
Lemma erased_andthen {A B} (x : lact A) y (f : A -> lact B) g : erased x y -> (forall a, erased (f a) (g a)) -> erased (landthen x f) (andthen y g).
Proof.
  intros X F s l. unfold landthen, andthen. rewrite <- (X s l). destruct (x s l) as [[s' l'] [a|e]]; cbn [fst snd]; [apply F|reflexivity].
Qed.
Lemma erased_perform {A} o ls (f : converter world * world -> (converter world * world) * res A) : erased (lperform faults stray o ls f) (perform faults o f).
Proof. intros s l. unfold lperform. destruct (perform faults o f s) as [s' r]. reflexivity. Qed.
Lemma erased_silent o ls : erased (lsilent faults stray o ls) (silent faults o).
Proof. apply erased_perform. Qed.

Lemma erased_messages : forall ms, erased (messages_log why path_text error_text assertion class_text ord faults bare env ctl stray ms) (messages ord faults ms).
Proof.
  induction ms as [|m ms IH]; cbn [messages_log messages]; [apply erased_ret|].
  apply erased_andthen; [apply erased_perform|]. intros [o|]; (apply erased_andthen; [|intros _; exact IH]); [apply erased_perform|apply erased_ret].
Qed.
Lemma erased_chunks : forall reads size processed,
  erased (chunks_log why path_text error_text assertion class_text ord faults bare env ctl stray size processed reads) (chunks ord faults size processed reads).
Proof.
  induction reads as [|c reads IH]; intros size processed; cbn [chunks_log chunks]; (apply erased_andthen; [apply erased_silent|]); intros _; [apply erased_ret|].
  destruct c as [|b c]; [apply erased_ret|]. cbv zeta. apply erased_andthen; [apply erased_perform|]. intros ms.
  apply erased_andthen; [apply erased_messages|]. intros _. apply erased_andthen; [apply erased_silent|]. intros _.
  apply erased_andthen; [destruct (size =? 0); [apply erased_raise|apply erased_ret]|]. intros _.
  apply erased_andthen; [apply erased_perform|]. intros _. apply IH.
Qed.
Lemma erased_try src s l :
  (let '(s', _, r, o) := try_log why path_text error_text assertion class_text ord faults bare env ctl fpath stray src s l in (s', r, o)) = try_block ord faults src s.
Proof.
  unfold try_log, try_block.
  match goal with |- context[lperform faults stray OOpen ?a ?b s l] => pose proof (erased_perform OOpen a b s l) as E;
    destruct (lperform faults stray OOpen a b s l) as [[s1 l1] [u|e]] end; cbn [fst snd] in E; rewrite <- E; [|reflexivity].
  match goal with |- context[landthen ?a ?b s1 l1] => assert (E2 : erased (landthen a b) (andthen (silent faults OLog) (fun _ => andthen (silent faults OSize) (fun _ =>
     match src with Some (size, reads) => chunks ord faults size 0 reads | None => ret tt end)))) end.
  { apply erased_andthen; [apply erased_silent|]. intros _. apply erased_andthen; [apply erased_silent|]. intros _.
    destruct src as [[size reads]|]; [apply erased_chunks|apply erased_ret]. }
  specialize (E2 s1 l1). rewrite <- E2. destruct (landthen _ _ s1 l1) as [[s2 l2] r]. reflexivity.
Qed.
Lemma erased_handler e : erased (handler_log faults exn_text stray missing e) (handler faults e).
Proof.
  destruct e; cbn [handler_log handler]; (apply erased_andthen; [apply erased_silent|]); intros _; try apply erased_ret;
    (apply erased_andthen; [apply erased_silent|]); intros _; apply erased_ret.
Qed.
Lemma erased_finally opened : erased (finally_log ord faults fpath stray opened) (finally_block ord faults opened).
Proof.
  unfold finally_log, finally_block. apply erased_andthen; [apply erased_perform|]. intros _. apply erased_andthen; [apply erased_silent|].
  intros _. destruct opened; [apply erased_silent|apply erased_ret].
Qed.
Lemma erased_file src :
  erased (decode_rtcm_file_log why path_text error_text assertion class_text ord faults bare env ctl fpath exn_text stray missing src) (decode_rtcm_file ord faults src).
Proof.
  intros s l. unfold decode_rtcm_file_log, decode_rtcm_file. rewrite <- (erased_try src s l).
  destruct (try_log _ _ _ _ _ _ _ _ _ _ _ _ _ s l) as [[[s1 l1] r] opened].
  assert (E : exists s2 l2 r2, (match r with Ok _ => (s1, l1, Ok true) | Err e => handler_log faults exn_text stray missing e s1 l1 end) = (s2, l2, r2) /\
    (match r with Ok _ => (s1, Ok true) | Err e => handler faults e s1 end) = (s2, r2)).
  { destruct r as [u|e]; [do 3 eexists; split; reflexivity|]. pose proof (erased_handler e s1 l1) as E.
    destruct (handler_log _ _ _ _ e s1 l1) as [[s2 l2] r2]. exists s2, l2, r2. split; [reflexivity|]. symmetry. exact E. }
  destruct E as (s2 & l2 & r2 & -> & ->). rewrite <- (erased_finally opened s2 l2).
  destruct (finally_log _ _ _ _ opened s2 l2) as [[s3 l3] [u|e]]; reflexivity.
Qed.
End Erase.

(** ** The lines of an undisturbed conversion *)
Section Lines.
Context (why : list Z -> exn -> text) (path_text error_text : string -> text) (assertion : rtcm_obj -> text) (class_text : string -> text).
Context (ord : list (subprinter world) -> list (subprinter world)) (mode : string) (env : os) (ctl : boxed_controls).
Context (fpath : text) (exn_text : exn -> text) (stray : nat -> list line) (missing : bool).
Notation messages_log := (messages_log why path_text error_text assertion class_text ord no_faults (is_bare mode) env (box_margo ctl) stray).
Notation chunks_log := (chunks_log why path_text error_text assertion class_text ord no_faults (is_bare mode) env (box_margo ctl) stray).
Notation file_log := (decode_rtcm_file_log why path_text error_text assertion class_text ord no_faults (is_bare mode) env (box_margo ctl) fpath exn_text stray missing).
Notation plines := (proc_lines why path_text error_text assertion class_text ord mode env ctl).

Lemma lperform_ok {A} o ls (f : converter world * world -> (converter world * world) * res A) s l : exists t,
  lperform no_faults stray o ls f s l = (let '((c, w), r) := f (r_conv s, r_world s) in
    ({| r_conv := c; r_world := w; r_trace := t |}, l ++ ls (r_conv s) (r_world s), r)).
Proof. eexists. unfold lperform, perform, no_faults. destruct (f _) as [[c w] r]. reflexivity. Qed.
Lemma lsilent_ok o ls s l : exists t,
  lsilent no_faults stray o ls s l = ({| r_conv := r_conv s; r_world := r_world s; r_trace := t |}, l ++ ls, Ok tt).
Proof. eexists. unfold lsilent, lperform, perform, no_faults. reflexivity. Qed.

Lemma messages_lines : forall msgs s l st', proc ord (state_of s) msgs = (st', Ok tt) ->
  exists s', messages_log msgs s l = (s', l ++ plines (state_of s) msgs, Ok tt) /\ state_of s' = st' /\ cv_framer (r_conv s') = cv_framer (r_conv s).
Proof.
  induction msgs as [|m msgs IH]; intros s l st' H.
  { cbn [proc] in H. injection H as <-. exists s. cbn. rewrite app_nil_r. auto. }
  cbn [LogModel.messages_log]. unfold landthen at 1.
  match goal with |- context[lperform no_faults stray ODecode ?a ?b s l] => destruct (lperform_ok ODecode a b s l) as (t & ->) end.
  unfold cv_decode. unfold state_of in H |- *. cbn [proc proc_lines] in *. destruct (decode (cv_decoder (r_conv s)) m) as [[[o|]|e] d] eqn:D; [| |discriminate].
  - cbv beta iota zeta. destruct (top_print ord (cv_printer (r_conv s)) (r_world s) o) as [[p w] [[]|e]] eqn:T; [|discriminate].
    unfold landthen at 1.
    match goal with |- context[lperform no_faults stray OPrint ?a ?b ?s1 ?l1] => destruct (lperform_ok OPrint a b s1 l1) as (t2 & ->) end.
    cbn [r_conv r_world]. unfold cv_print. cbn [cv_printer]. rewrite T. cbn [cv_framer cv_decoder].
    match goal with |- context[messages_log msgs ?s2 ?l2] => destruct (IH s2 l2 st') as (s' & E & S & F) end;
      [unfold state_of; cbn; exact H|]. exists s'. rewrite E. unfold state_of at 1. cbn [r_conv r_world cv_decoder cv_printer].
    rewrite <- !app_assoc. split; [reflexivity|]. split; [exact S|]. rewrite F. reflexivity.
  - cbv beta iota zeta. unfold landthen, lret at 1.
    match goal with |- context[messages_log msgs ?s2 ?l2] => destruct (IH s2 l2 st') as (s' & E & S & F) end;
      [unfold state_of; cbn; exact H|]. exists s'. rewrite E. unfold state_of at 1. cbn [r_conv r_world cv_decoder cv_printer].
    rewrite <- !app_assoc. split; [reflexivity|]. split; [exact S|]. rewrite F. reflexivity.
Qed.

(** The lines of reads: those about the messages that are completed, and the progress. *)
Definition stats_of (fr : framer) (s : dpw) : statistics :=
  let '(d, p, w) := s in get_statistics {| cv_framer := fr; cv_decoder := d; cv_printer := p |}.
Inductive parts_of (size : Z) : Z -> framer -> dpw -> list (list Z) -> list (list line * text) -> framer -> dpw -> Prop :=
| parts_nil n fr s : parts_of size n fr s [] [] fr s
| parts_cons n fr s c reads fr1 ms s1 ps fr2 s2 : catch_message fr c = Ok (fr1, ms) -> proc ord s ms = (s1, Ok tt) ->
    parts_of size (n + zlen c) fr1 s1 reads ps fr2 s2 ->
    parts_of size n fr s (c :: reads) ((plines s ms, progress_text size (n + zlen c) (stats_of fr1 s1)) :: ps) fr2 s2.

Lemma chunks_lines : forall reads size processed s l fr ms st',
  (reads <> [] -> size <> 0) -> ~ In [] reads -> feed (cv_framer (r_conv s)) reads = Ok (fr, ms) -> proc ord (state_of s) ms = (st', Ok tt) ->
  exists s' ps, chunks_log size processed reads s l = (s', l ++ written ps, Ok tt) /\ state_of s' = st' /\ cv_framer (r_conv s') = fr /\
    parts_of size processed (cv_framer (r_conv s)) (state_of s) reads ps fr st'.
Proof.
  induction reads as [|c reads IH]; intros size processed s l fr ms st' Z N F P; cbn [LogModel.chunks_log]; unfold landthen at 1.
  - destruct (lsilent_ok ORead [] s l) as (t & ->). cbn [feed] in F. assert (fr = cv_framer (r_conv s) /\ ms = []) as (-> & ->) by (split; congruence).
    cbn [proc] in P. injection P as <-. eexists _, []. cbn [written flat_map]. rewrite !app_nil_r. split; [reflexivity|]. split; [reflexivity|]. split; [reflexivity|]. constructor.
  - specialize (Z ltac:(discriminate)). destruct (lsilent_ok ORead [] s l) as (t & ->). rewrite app_nil_r. destruct c as [|b c]; [exfalso; apply N; now left|].
    set (chunk := b :: c) in *. cbn [feed] in F. cbv zeta.
    destruct (catch_message (cv_framer (r_conv s)) chunk) as [[f1 ms1]|e] eqn:CM; [|discriminate]. cbn [bind] in F.
    destruct (feed f1 reads) as [[f2 ms2]|e] eqn:FR; [|discriminate]. cbn [bind] in F.
    assert (fr = f2 /\ ms = ms1 ++ ms2) as (-> & ->) by (split; congruence).
    rewrite proc_app in P. destruct (proc ord (state_of s) ms1) as [s1 [[]|e]] eqn:P1; [|discriminate].
    unfold landthen at 1.
    match goal with |- context[lperform no_faults stray OParse ?a ?f ?s1 ?l1] => destruct (lperform_ok OParse a f s1 l1) as (t2 & ->) end.
    cbn [r_conv r_world]. unfold cv_parse. rewrite CM, app_nil_r. unfold landthen at 1.
    match goal with |- context[messages_log ms1 ?s2 ?l2] => destruct (messages_lines ms1 s2 l2 s1) as (s2' & E & S & Fr) end;
      [unfold state_of in *; cbn; exact P1|]. rewrite E. unfold landthen at 1.
    match goal with |- context[lsilent no_faults stray OStats ?a ?s3 ?l3] => destruct (lsilent_ok OStats a s3 l3) as (t3 & ->) end.
    rewrite (proj2 (Z.eqb_neq size 0) Z). unfold landthen at 1, lret at 1. unfold landthen at 1.
    match goal with |- context[lperform no_faults stray OProgress ?a ?f ?s3 ?l3] => destruct (lperform_ok OProgress a f s3 l3) as (t4 & ->) end.
    match goal with |- context[chunks_log size ?pr reads ?s4 ?l4] => destruct (IH size pr s4 l4 f2 ms2 st') as (s5 & ps & E5 & S5 & F5 & PO) end.
    + intros _. exact Z.
    + intros I. apply N. now right.
    + cbn [r_conv] in *. rewrite Fr. cbn [cv_framer]. exact FR.
    + unfold state_of in S |- *. cbn [r_conv r_world]. rewrite S. exact P.
    + unfold state_of at 1 in PO. cbn [r_conv r_world] in PO, Fr, E5. rewrite Fr in PO. cbn [cv_framer] in PO.
      assert (SO : (cv_decoder (r_conv s2'), cv_printer (r_conv s2'), r_world s2') = s1) by exact S. rewrite SO in PO.
      assert (GS : get_statistics (r_conv s2') = stats_of f1 s1).
      { rewrite <- SO. unfold stats_of. destruct (r_conv s2') as [a b0 d0]. cbn in Fr |- *. now rewrite Fr. }
      exists s5. eexists (_ :: ps). split; [|split; [exact S5|split; [exact F5|econstructor; [exact CM|exact P1|exact PO]]]].
      etransitivity; [exact E5|]. cbn [written flat_map fst snd]. rewrite GS, app_nil_r, <- !app_assoc. reflexivity.
Qed.

Lemma file_lines reads size s fr ms d p w w' r :
  (reads <> [] -> size <> 0) -> ~ In [] reads -> feed (cv_framer (r_conv s)) reads = Ok (fr, ms) ->
  proc ord (state_of s) ms = ((d, p, w), Ok tt) -> top_close ord p w = (w', r) ->
  exists s' ps, file_log (Some (size, reads)) s [] =
      (s', (greeting fpath :: written ps) ++
           match r with Ok _ => [LogSpec.farewell fpath true] | Err _ => [] end,
       match r with Ok _ => Ok true | Err e => Err e end) /\
    r_conv s' = {| cv_framer := fr; cv_decoder := d; cv_printer := p |} /\
    parts_of size 0 (cv_framer (r_conv s)) (state_of s) reads ps fr (d, p, w).
Proof.
  intros Z N F P C. unfold decode_rtcm_file_log, try_log.
  match goal with |- context[lperform no_faults stray OOpen ?a ?f ?s1 ?l1] => destruct (lperform_ok OOpen a f s1 l1) as (t & ->) end.
  unfold landthen at 1. match goal with |- context[lsilent no_faults stray OLog ?a ?x ?y] => destruct (lsilent_ok OLog a x y) as (t1 & ->) end.
  unfold landthen at 1. match goal with |- context[lsilent no_faults stray OSize ?a ?x ?y] => destruct (lsilent_ok OSize a x y) as (t2 & ->) end.
  match goal with |- context[chunks_log size 0 reads ?x ?y] => destruct (chunks_lines reads size 0 x y fr ms (d, p, w) Z N F P) as (s1 & ps & -> & S1 & F1 & PO) end.
  unfold finally_log, landthen.
  match goal with |- context[lperform no_faults stray ORelease ?a ?f s1 ?y] => destruct (lperform_ok ORelease a f s1 y) as (t3 & ->) end.
  unfold state_of in S1. assert (S1' : cv_decoder (r_conv s1) = d /\ cv_printer (r_conv s1) = p /\ r_world s1 = w) by (repeat split; congruence).
  destruct S1' as (E1 & E2 & E3). cbv beta iota. unfold cv_release. rewrite E2, E3, C. destruct r as [u|e].
  - match goal with |- context[lsilent no_faults stray OLog ?a ?x ?y] => destruct (lsilent_ok OLog a x y) as (t4 & ->) end.
    match goal with |- context[lsilent no_faults stray OCloseFile ?a ?x ?y] => destruct (lsilent_ok OCloseFile a x y) as (t5 & ->) end.
    eexists _, ps. split; [rewrite !app_nil_r; reflexivity|]. cbn [r_conv r_world]. split; [|exact PO].
    destruct (r_conv s1) as [a b e]. cbn in *. subst. reflexivity.
  - eexists _, ps. split; [rewrite !app_nil_r; reflexivity|]. cbn [r_conv r_world]. split; [|exact PO].
    destruct (r_conv s1) as [a b e0]. cbn in *. subst. reflexivity.
Qed.

(** What the lines say up to a read. *)
Lemma parts_length size n fr s reads ps fr2 s2 : parts_of size n fr s reads ps fr2 s2 -> length ps = length reads.
Proof. induction 1; cbn; congruence. Qed.
Lemma parts_upto size n fr s reads ps fr2 s2 : parts_of size n fr s reads ps fr2 s2 -> forall k,
  exists frk msk sk, feed fr (firstn k reads) = Ok (frk, msk) /\ proc ord s msk = (sk, Ok tt) /\ flat_map fst (firstn k ps) = plines s msk.
Proof.
  induction 1 as [n fr s|n fr s c reads fr1 ms s1 ps fr2 s2 CM P PO IH]; intros k.
  - exists fr, [], s. rewrite !firstn_nil. destruct s as [[d p] w]. repeat split; reflexivity.
  - destruct k as [|k]; [exists fr, [], s; destruct s as [[d p] w]; repeat split; reflexivity|].
    destruct (IH k) as (frk & msk & sk & A & B & D). exists frk, (ms ++ msk), sk. cbn [firstn feed flat_map fst]. rewrite CM. cbn [bind]. rewrite A. cbn [bind].
    split; [reflexivity|]. split; [now rewrite proc_app, P|]. now rewrite D, (proc_lines_app _ _ _ _ _ _ _ _ _ _ _ _ _ P).
Qed.
Lemma parts_progress size n fr s reads ps fr2 s2 : parts_of size n fr s reads ps fr2 s2 -> forall k x, nth_error ps k = Some x ->
  exists frk msk sk, feed fr (firstn (S k) reads) = Ok (frk, msk) /\ proc ord s msk = (sk, Ok tt) /\
    snd x = progress_text size (n + zlen (concat (firstn (S k) reads))) (stats_of frk sk).
Proof.
  induction 1 as [n fr s|n fr s c reads fr1 ms s1 ps fr2 s2 CM P PO IH]; intros k x E; [destruct k; discriminate|].
  destruct k as [|k].
  - injection E as <-. exists fr1, ms, s1. cbn [firstn feed concat]. rewrite CM. cbn [bind]. rewrite !app_nil_r. repeat split; auto.
  - cbn [nth_error] in E. destruct (IH k x E) as (frk & msk & sk & A & B & D). exists frk, (ms ++ msk), sk.
    change (firstn (S (S k)) (c :: reads)) with (c :: firstn (S k) reads). cbn [feed concat]. rewrite CM. cbn [bind]. rewrite A. cbn [bind].
    split; [reflexivity|]. split; [now rewrite proc_app, P|]. rewrite D. unfold zlen. rewrite app_length, Nat2Z.inj_add, Z.add_assoc. reflexivity.
Qed.
End Lines.

(** ** The lines of a disturbed conversion *)
Section Cut.
Context (why : list Z -> exn -> text) (path_text error_text : string -> text) (assertion : rtcm_obj -> text) (class_text : string -> text).
Context (ord : list (subprinter world) -> list (subprinter world)) (bare : bool) (env : os) (ctl : margo_controls).
Context (fpath : text) (exn_text : exn -> text) (stray : nat -> list line) (missing : bool).
Context (n : nat) (flt : fault).
Definition only (i : nat) : option fault := if Nat.eqb i n then Some flt else None.
Definition thrown : exn := match flt with Before e => e | During e _ => e end.
Definition left_over : list line := match flt with Before _ => [] | During _ _ => stray n end.

(** [x] runs with the fault, [y] without: the same, or [x] breaks off. *)
Definition cut {A} (x y : lact A) : Prop := forall s l, (length (r_trace s) <= n)%nat ->
  exists s1 m1 r1, y s l = (s1, l ++ m1, r1) /\ (length (r_trace s) <= length (r_trace s1))%nat /\
    ((x s l = y s l /\ (length (r_trace s1) <= n)%nat) \/
     exists s2 ma mb, m1 = ma ++ mb /\ x s l = (s2, l ++ ma ++ left_over, Err thrown) /\ (length (r_trace s2) = S n)%nat).

Lemma cut_ret {A} (a : A) : cut (lret a) (lret a).
Proof. intros s l L. exists s, [], (Ok a). rewrite app_nil_r. split; [reflexivity|]. split; [lia|]. left. split; [reflexivity|exact L]. Qed.
Lemma cut_raise {A} e : cut (@lraise A e) (lraise e).
Proof. intros s l L. exists s, [], (Err e). rewrite app_nil_r. split; [reflexivity|]. split; [lia|]. left. split; [reflexivity|exact L]. Qed.
(** Without the fault, lines and operations are only added. *)
Definition grows {A} (y : lact A) : Prop := forall s l, exists s1 m1 r1, y s l = (s1, l ++ m1, r1) /\ (length (r_trace s) <= length (r_trace s1))%nat.
Lemma grows_andthen {A B} (y : lact A) (g : A -> lact B) : grows y -> (forall a, grows (g a)) -> grows (landthen y g).
Proof.
  intros Y G s l. unfold landthen. destruct (Y s l) as (s1 & m1 & r1 & -> & L). destruct r1 as [a|e]; [|eauto 6].
  destruct (G a s1 (l ++ m1)) as (s2 & m2 & r2 & -> & L2). exists s2, (m1 ++ m2), r2. rewrite app_assoc. split; [reflexivity|lia].
Qed.
Lemma grows_perform {A} o ls (f : converter world * world -> (converter world * world) * res A) : grows (lperform no_faults stray o ls f).
Proof.
  intros s l. unfold lperform, perform, no_faults. destruct (f _) as [[c w] r]. do 3 eexists. split; [reflexivity|]. cbn. lia.
Qed.
Lemma grows_ret {A} (a : A) : grows (lret a).
Proof. intros s l. exists s, [], (Ok a). now rewrite app_nil_r. Qed.
Lemma grows_raise {A} e : grows (@lraise A e).
Proof. intros s l. exists s, [], (Err e). now rewrite app_nil_r. Qed.

Lemma cut_andthen {A B} (x y : lact A) (f g : A -> lact B) : cut x y -> (forall a, cut (f a) (g a)) -> (forall a, grows (g a)) -> cut (landthen x f) (landthen y g).
Proof.
  intros X F G s l L. unfold landthen. destruct (X s l L) as (s1 & m1 & r1 & EY & L1 & H). rewrite EY.
  destruct H as [(EX & L2)|(s2 & ma & mb & EM & EX & L2)].
  - rewrite EX, EY. destruct r1 as [a|e].
    + destruct (F a s1 (l ++ m1) L2) as (s3 & m3 & r3 & EG & L3 & H). exists s3, (m1 ++ m3), r3. rewrite EG, app_assoc.
      split; [reflexivity|]. split; [lia|]. destruct H as [(EF & L4)|(s4 & ma & mb & EM & EF & L4)].
      * left. rewrite EF, EG. auto.
      * right. exists s4, (m1 ++ ma), mb. rewrite EM, EF, <- !app_assoc. auto.
    + exists s1, m1, (Err e). split; [reflexivity|]. split; [exact L1|]. left. auto.
  - rewrite EX. destruct r1 as [a|e].
    + destruct (G a s1 (l ++ m1)) as (s3 & m3 & r3 & -> & L3). exists s3, (m1 ++ m3), r3. rewrite app_assoc. split; [reflexivity|]. split; [lia|].
      right. exists s2, ma, (mb ++ m3). rewrite EM, <- app_assoc. auto.
    + exists s1, m1, (Err e). split; [reflexivity|]. split; [exact L1|]. right. exists s2, ma, mb. auto.
Qed.
Lemma cut_perform {A} o ls (f : converter world * world -> (converter world * world) * res A) :
  cut (lperform only stray o ls f) (lperform no_faults stray o ls f).
Proof.
  intros s l L. unfold lperform, perform, no_faults, only. destruct (f (r_conv s, r_world s)) as [[c w] r]. do 3 eexists. split; [reflexivity|].
  split; [cbn; lia|]. destruct (Nat.eqb_spec (length (r_trace s)) n) as [E|E].
  - right. exists (match flt with Before _ => {| r_conv := r_conv s; r_world := r_world s; r_trace := (o, false) :: r_trace s |}
                    | During _ d => let '(c, w) := d (r_conv s, r_world s) in {| r_conv := c; r_world := w; r_trace := (o, true) :: r_trace s |} end), [].
    eexists. split; [reflexivity|]. unfold left_over, thrown. destruct flt as [e|e d]; cbn [app].
    + split; [reflexivity|]. cbn. lia.
    + rewrite E. destruct (d _) as [c' w']. split; [reflexivity|]. cbn. lia.
  - left. split; [reflexivity|]. cbn. lia.
Qed.
Lemma cut_silent o ls : cut (lsilent only stray o ls) (lsilent no_faults stray o ls).
Proof. apply cut_perform. Qed.
Lemma grows_silent o ls : grows (lsilent no_faults stray o ls).
Proof. apply grows_perform. Qed.

Notation messages_log := (fun fa => messages_log why path_text error_text assertion class_text ord fa bare env ctl stray).
Notation chunks_log := (fun fa => chunks_log why path_text error_text assertion class_text ord fa bare env ctl stray).
Lemma grows_messages : forall ms, grows (messages_log no_faults ms).
Proof.
  induction ms as [|m ms IH]; [apply grows_ret|]. cbn [LogModel.messages_log]. apply grows_andthen; [apply grows_perform|].
  intros [o|]; (apply grows_andthen; [|intros _; exact IH]); [apply grows_perform|apply grows_ret].
Qed.
Lemma cut_messages : forall ms, cut (messages_log only ms) (messages_log no_faults ms).
Proof.
  induction ms as [|m ms IH]; [apply cut_ret|]. cbn [LogModel.messages_log]. apply cut_andthen; [apply cut_perform| |];
  (intros [o|]; [|]); first [apply cut_andthen; [first [apply cut_perform|apply cut_ret]|intros _; exact IH|intros _; apply grows_messages]
    |apply grows_andthen; [first [apply grows_perform|apply grows_ret]|intros _; apply grows_messages]].
Qed.
Lemma grows_chunks : forall reads size processed, grows (chunks_log no_faults size processed reads).
Proof.
  induction reads as [|c reads IH]; intros size processed; cbn [LogModel.chunks_log]; (apply grows_andthen; [apply grows_silent|]); intros _; [apply grows_ret|].
  destruct c as [|b c]; [apply grows_ret|]. cbv zeta. apply grows_andthen; [apply grows_perform|]. intros ms.
  apply grows_andthen; [apply grows_messages|]. intros _. apply grows_andthen; [apply grows_silent|]. intros _.
  apply grows_andthen; [destruct (size =? 0); [apply grows_raise|apply grows_ret]|]. intros _.
  apply grows_andthen; [apply grows_perform|]. intros _. apply IH.
Qed.
Ltac growing := repeat first [apply grows_andthen; [|intros]|apply grows_silent|apply grows_perform|apply grows_messages|apply grows_chunks|apply grows_ret|apply grows_raise].
Lemma cut_chunks : forall reads size processed, cut (chunks_log only size processed reads) (chunks_log no_faults size processed reads).
Proof.
  induction reads as [|c reads IH]; intros size processed; cbn [LogModel.chunks_log].
  { apply cut_andthen; [apply cut_silent|intros _; apply cut_ret|intros _; apply grows_ret]. }
  apply cut_andthen; [apply cut_silent| |]; intros _; (destruct c as [|b c]; [first [apply cut_ret|apply grows_ret]|]); cbv zeta.
  2:{ growing. destruct (size =? 0); growing. }
  apply cut_andthen; [apply cut_perform| |]; intros ms; [|growing; destruct (size =? 0); growing].
  apply cut_andthen; [apply cut_messages| |]; intros _; [|growing; destruct (size =? 0); growing].
  apply cut_andthen; [apply cut_silent| |]; intros _; [|growing; destruct (size =? 0); growing].
  apply cut_andthen; [destruct (size =? 0); [apply cut_raise|apply cut_ret]| |]; intros _; [|growing].
  apply cut_andthen; [apply cut_perform| |]; intros _; [apply IH|growing].
Qed.
(** After the fault nothing is disturbed any more. *)
Lemma only_after s o ls l : (n < length (r_trace s))%nat -> lsilent only stray o ls s l = lsilent no_faults stray o ls s l.
Proof. intros L. unfold lsilent, lperform, perform, only, no_faults. destruct (Nat.eqb_spec (length (r_trace s)) n); [lia|reflexivity]. Qed.
Lemma only_after_perform {A} s o ls (f : converter world * world -> (converter world * world) * res A) l : (n < length (r_trace s))%nat ->
  lperform only stray o ls f s l = lperform no_faults stray o ls f s l.
Proof. intros L. unfold lperform, perform, only, no_faults. destruct (Nat.eqb_spec (length (r_trace s)) n); [lia|reflexivity]. Qed.

Notation excuse := (excuse exn_text missing).
Lemma handler_after e s l : (n < length (r_trace s))%nat -> exists s',
  handler_log (only) exn_text stray missing e s l = (s', l ++ excuse e, Ok false) /\ (n < length (r_trace s'))%nat.
Proof.
  intros L. assert (T : forall o ls s l, (n < length (r_trace s))%nat -> exists s', lsilent only stray o ls s l = (s', l ++ ls, Ok tt) /\ (n < length (r_trace s'))%nat).
  { intros o ls s0 l0 L0. rewrite only_after by exact L0. eexists. split; [reflexivity|]. cbn. lia. }
  assert (T2 : forall a b, exists s', landthen (lsilent only stray OLog [a]) (fun _ => landthen (lsilent only stray OLog [b]) (fun _ => lret false)) s l =
    (s', l ++ [a; b], Ok false) /\ (n < length (r_trace s'))%nat).
  { intros a b. destruct (T OLog [a] s l L) as (s1 & E1 & L1). destruct (T OLog [b] s1 (l ++ [a]) L1) as (s2 & E2 & L2).
    exists s2. unfold landthen. rewrite E1, E2, <- app_assoc. auto. }
  destruct e; cbn [handler_log LogSpec.excuse]; try apply T2.
  destruct (T OLog [(LError, ustr "Processing terminated by the user.")] s l L) as (s1 & E1 & L1). exists s1. unfold landthen. rewrite E1. auto.
Qed.
Notation farewell := (farewell fpath).
Lemma finally_after opened s l : (n < length (r_trace s))%nat -> exists s' r',
  finally_log ord only fpath stray opened s l = (s', l ++ match r' with Ok _ => [farewell opened] | Err _ => [] end, r').
Proof.
  intros L. unfold finally_log, landthen. rewrite only_after_perform by exact L.
  match goal with |- context[lperform no_faults stray ORelease ?a ?b s l] => unfold lperform, perform, no_faults at 1; destruct (b (r_conv s, r_world s)) as [[c w] [u|e]] end.
  - cbv beta iota. cbn [no_faults]. rewrite only_after by (cbn; lia).
    match goal with |- context[lsilent no_faults stray OLog ?a ?x ?y] => assert (E : lsilent no_faults stray OLog a x y = ({| r_conv := r_conv x; r_world := r_world x; r_trace := (OLog, true) :: r_trace x |}, y ++ a, Ok tt)) by reflexivity; rewrite E; clear E end.
    destruct opened.
    + rewrite only_after by (cbn; lia). eexists _, (Ok tt). unfold lsilent, lperform, perform, no_faults. rewrite !app_nil_r. reflexivity.
    + eexists _, (Ok tt). unfold lret, no_faults. rewrite !app_nil_r. reflexivity.
  - eexists _, (Err e). unfold no_faults. rewrite !app_nil_r. reflexivity.
Qed.
Notation file_log := (fun fa => decode_rtcm_file_log why path_text error_text assertion class_text ord fa bare env ctl fpath exn_text stray missing).
Notation try_log := (fun fa => try_log why path_text error_text assertion class_text ord fa bare env ctl fpath stray).

Lemma cut_finally opened : cut (finally_log ord only fpath stray opened) (finally_log ord no_faults fpath stray opened).
Proof.
  unfold finally_log. apply cut_andthen; [apply cut_perform| |]; intros _; [|growing; destruct opened; growing].
  apply cut_andthen; [apply cut_silent| |]; intros _; destruct opened; growing; first [apply cut_silent|apply cut_ret].
Qed.

Lemma file_cut size reads s L s1 : r_trace s = [] -> file_log no_faults (Some (size, reads)) s [] = (s1, L, Ok true) ->
  exists s' la lb (r' : res unit), L = la ++ lb /\
  ((file_log only (Some (size, reads)) s [] = (s1, L, Ok true) /\ (length (r_trace s1) <= n)%nat) \/
   (file_log only (Some (size, reads)) s [] = (s', la ++ left_over ++ excuse thrown ++ match r' with Ok _ => [farewell (Nat.ltb 0 n)] | Err _ => [] end,
      match r' with Ok _ => Ok false | Err e => Err e end)) \/
   (file_log only (Some (size, reads)) s [] = (s', la ++ left_over, Err thrown))).
Proof.
  intros T0 H. unfold decode_rtcm_file_log, LogModel.try_log in *.
  set (op0 := lperform no_faults stray OOpen _ _) in H.
  match goal with |- context[lperform only stray OOpen ?a ?b s []] => set (op1 := lperform only stray OOpen a b) end.
  assert (C0 : cut op1 op0) by apply cut_perform.
  assert (E0 : exists s2, op0 s [] = (s2, [], Ok tt) /\ length (r_trace s2) = 1%nat).
  { eexists. split; [reflexivity|]. cbn. now rewrite T0. }
  destruct E0 as (s2 & E0 & L2). rewrite E0 in H.
  set (bd := fun fa => landthen (lsilent fa stray OLog [(LInfo, ustr "Opened file " ++ fpath ++ ustr ".")]) (fun _ => landthen (lsilent fa stray OSize [])
     (fun _ => chunks_log fa size 0 reads))) in *.
  change (landthen (lsilent no_faults stray OLog [(LInfo, ustr "Opened file " ++ fpath ++ ustr ".")]) _ s2 []) with (bd no_faults s2 []) in H.
  assert (CB : cut (bd only) (bd no_faults)).
  { unfold bd. apply cut_andthen; [apply cut_silent| |]; intros _; [|growing]. apply cut_andthen; [apply cut_silent| |]; intros _; [apply cut_chunks|growing]. }
  assert (GB : grows (bd no_faults)) by (unfold bd; growing).
  destruct (C0 s [] ltac:(rewrite T0; cbn; lia)) as (s2' & m2 & r2 & E0' & _ & H0).
  assert (s2' = s2 /\ m2 = [] /\ r2 = Ok tt) as (-> & -> & ->) by (rewrite E0 in E0'; cbn [app] in E0'; repeat split; congruence).
  destruct (GB s2 []) as (s3 & m3 & r3 & EB & L3). cbn [app] in EB. rewrite EB in H.
  destruct r3 as [[]|e3].
  2:{ (* without the fault nothing fails *)
      destruct (handler_log no_faults exn_text stray missing e3 s3 m3) as [[s4 l4] r4] eqn:HL.
      assert (r4 = Ok false) as ->.
      { destruct e3; cbn [handler_log] in HL; unfold landthen, lsilent, lperform, perform, no_faults, lret in HL; congruence. }
      destruct (finally_log ord no_faults fpath stray true s4 l4) as [[s5 l5] [u|e5]]; congruence. }
  destruct (finally_log ord no_faults fpath stray true s3 m3) as [[s5 l5] [[]|e5]] eqn:FL; [|congruence].
  assert (s5 = s1 /\ l5 = L) as (-> & ->) by (split; congruence). clear H.
  destruct H0 as [(EO & N0)|(s4 & ma & mb & EM & EO & N0)].
  - (* not at the opening *)
    rewrite EO, E0. change (landthen (lsilent only stray OLog [(LInfo, ustr "Opened file " ++ fpath ++ ustr ".")]) _ s2 []) with (bd only s2 []).
    assert (OP : Nat.ltb 0 n = true) by (apply Nat.ltb_lt; lia).
    assert (HF : forall s l, (length (r_trace s) <= n)%nat -> _) by (exact (cut_finally true)).
    destruct (CB s2 [] N0) as (s3' & m3' & r3' & EB' & _ & HB). cbn [app] in EB', HB.
    assert (s3' = s3 /\ m3' = m3 /\ r3' = Ok tt) as (-> & -> & ->) by (repeat split; congruence). clear EB'.
    destruct HB as [(EX & N3)|(s4 & ma & mb & EM & EX & N3)].
    + rewrite EX, EB. destruct (HF s3 m3 N3) as (s6 & m6 & r6 & EF & _ & HC). rewrite FL in EF.
      assert (s6 = s1 /\ L = m3 ++ m6 /\ r6 = Ok tt) as (-> & EL & ->) by (repeat split; congruence).
      destruct HC as [(EY & N6)|(s7 & mc & md & EM & EY & N6)].
      * exists s1, [], L, (Ok tt). split; [reflexivity|]. left. rewrite EY, FL. auto.
      * exists s7, (m3 ++ mc), md, (Ok tt). split; [now rewrite EL, EM, app_assoc|]. right. right. rewrite EY, <- app_assoc. reflexivity.
    + rewrite EX. destruct (handler_after thrown s4 (ma ++ left_over)) as (s6 & EH & N6); [lia|]. rewrite EH.
      destruct (finally_after true s6 ((ma ++ left_over) ++ excuse thrown) N6) as (s7 & r7 & EF). rewrite EF.
      assert (GF : grows (finally_log ord no_faults fpath stray true)) by (unfold finally_log; growing).
      destruct (GF s3 m3) as (s8 & m8 & r8 & EF8 & _). rewrite FL in EF8.
      exists s7, ma, (mb ++ m8), r7. split; [rewrite app_assoc, <- EM; congruence|]. right. left. rewrite OP, <- !app_assoc. destruct r7; reflexivity.
  - assert (n = 0%nat) as ZN.
    { assert (Q : r_trace s4 = [(OOpen, match flt with Before _ => false | During _ _ => true end)] ).
      { unfold op1, lperform, perform, only in EO. rewrite T0 in EO. cbn [length] in EO. destruct (Nat.eqb_spec 0 n) as [Z|Z]; [|apply (f_equal snd) in EO; discriminate EO].
        destruct flt as [e|e d]; [|destruct (d _) as [c' w']]; apply (f_equal (fun x => r_trace (fst (fst x)))) in EO; cbn [fst r_trace] in EO; now symmetry. }
      rewrite Q in N0. cbn in N0. lia. }
    symmetry in EM. apply app_eq_nil in EM. destruct EM as (-> & ->). cbn [app] in EO. rewrite EO. cbn [app].
    destruct (handler_after thrown s4 left_over) as (s6 & EH & N6); [lia|]. rewrite EH.
    destruct (finally_after false s6 (left_over ++ excuse thrown) N6) as (s7 & r7 & EF). rewrite EF.
    exists s7, [], L, r7. split; [reflexivity|]. right. left. rewrite ZN. cbn [Nat.ltb Nat.leb app]. rewrite <- app_assoc. destruct r7; reflexivity.
Qed.
End Cut.
