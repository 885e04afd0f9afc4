(** * MainProofs: lemmas for PropertiesMain. *)
From Coq Require Import Permutation.
From Verif Require Import PyBase PyDict PyFloat PyVal BitsSpec BitsModel MessageSpec FramerModel FramerSpec FramerProofs MsmModel MsmSpec MsmTheorems
  MsmScaleSpec MsmScaleTheorems MsmConvert MsmConverse
  DecoderModel DecoderSpec DecoderProofs PropertiesDecoder MargoModel MargoSpec MargoProofs MargoFiles PropertiesMargo
  JsonModel JsonFileSpec JsonFiles JsonDecoded PropertiesJson PrinterModel PrinterSpec PrinterProofs PropertiesPrinter MainModel MainSpec.
Local Open Scope string_scope.
Local Open Scope list_scope.
Local Open Scope Z_scope.

Lemma valid_transport f : valid_frame f -> exists payload crc, transport_frame f payload crc.
Proof.
  intros (h1 & h2 & payload & c1 & c2 & c3 & -> & H1 & H2 & L & B & B1 & B2 & B3 & _). exists payload, [c1; c2; c3].
  unfold transport_frame, frame_of. rewrite L. split.
  - cbn [app]. repeat f_equal; lia.
  - split; [lia|]. split; [reflexivity|]. split; [exact B|]. apply Forall_cons; [exact B1|]. apply Forall_cons; [exact B2|]. apply Forall_cons; [exact B3|]. apply Forall_nil.
Qed.

(** ** Decoding does not depend on the counters *)
Lemma decode_result d d' msg : d_decoders d = d_decoders d' -> fst (decode d msg) = fst (decode d' msg).
Proof.
  intros E. unfold decode, decode_body. rewrite <- E. destruct (mnum msg) as [num|e]; [|destruct (is_exception e); reflexivity].
  destruct (find _ _) as [dec|]; [|reflexivity].
  destruct (match sd_decode dec with Some f => f msg | None => Err ENotImpl end) as [rv|e]; [|destruct (is_exception e); reflexivity].
  destruct (match num with Some n => zindex (sd_spec dec) n | None => Err EKey end) as [cls|e]; [|destruct (is_exception e); reflexivity].
  destruct (negb _); reflexivity.
Qed.
Lemma decoders_same h frames : d_decoders (after (h ++ map Decode frames)) = d_decoders (after h).
Proof.
  induction frames as [|f frames IH] using rev_ind; [now rewrite app_nil_r|].
  rewrite map_app, app_assoc. cbn [map]. rewrite after_snoc. cbn [after_event]. now rewrite decode_table.
Qed.
Lemma answer_same h frames f : answer (h ++ map Decode frames) f = answer h f.
Proof. unfold answer. apply decode_result. apply decoders_same. Qed.

(** ** What is printed *)
Lemma mode_standard mode : standard_history (is_bare mode) (map Register (decoders_of mode)).
Proof. pose proof (standard_calls mode []) as H. cbn [decoded_msgs flat_map] in H. now rewrite app_nil_r in H. Qed.

Lemma answer_class mode env ctl c f o : factory mode true env ctl = Ok (Some c) -> bytes_ok f ->
  answer (map Register (decoders_of mode)) f = Ok (Some o) -> mode_classes mode (class_of o).
Proof.
  intros F B A. refine (decoded_class mode env ctl c (fun l => l) world_init [] f o F B _). cbn [reached fold_left fst].
  destruct (factory_inv _ _ _ _ _ F) as (_ & _ & _ & E & _). unfold cv_decode. rewrite E. unfold answer in A.
  destruct (decode _ _). exact A.
Qed.

Lemma answer_scaled mode f o : valid_frame f -> answer (map Register (decoders_of mode)) f = Ok (Some o) ->
  class_of o = "ObservablesMSM" -> exists g t r, o = OMsm (MsmScaled r) /\ printable g t r.
Proof.
  intros V A C. destruct (valid_transport f V) as (payload & crc & TF). pose proof (valid_frame_bytes f V) as B.
  destruct (C12_result _ _ _ B A) as (io & n & cls & g & I & HN & Cl & SD & R & IS).
  apply force_registered in I. apply (mode_standard mode) in I. rename g into dec.
  assert (X : exists r, wrap_msm (decode_msm17 (is_bare mode) f) = Ok (Some r) /\ r = o \/ exists p, o = OPy p /\ po_class p = "ObservablesMSM").
  { destruct I as [<-|[<-|[<-|[<-|[]]]]]; cbn [sd_decode sub_msm4567 sub_msm123 sub_eph sub_base] in SD;
      apply (f_equal (fun x => match x with Some g => g f | None => Err EKey end)) in SD; rewrite R in SD.
    - exists o. left. auto.
    - exists o. left. auto.
    - exists o. right. unfold wrap_py in SD. destruct (EphModel.subdecoder_eph _ f) as [[p|]|]; cbn in SD; try discriminate.
      exists p. split; [congruence|]. assert (o = OPy p) as -> by congruence. exact C.
    - exists o. right. unfold wrap_py in SD. destruct (BaseModel.subdecoder_base _ f) as [[p|]|]; cbn in SD; try discriminate.
      exists p. split; [congruence|]. assert (o = OPy p) as -> by congruence. exact C. }
  destruct X as (r0 & [(D & ->)|(p & -> & CP)]).
  2:{ exfalso. destruct (C12_standard _ _ _ (mode_standard mode) B) as [N|(o' & n' & A' & HN' & AN)]; [congruence|].
      assert (o' = OPy p) as -> by congruence.
      destruct (decoded_object (sample_controls true) (is_bare mode) _ f payload crc (OPy p) (mode_standard mode) TF A) as ((_ & _ & J) & _).
      rewrite CP in J. vm_compute in J. discriminate. }
  unfold wrap_msm in D. destruct (decode_msm17 (is_bare mode) f) as [[r|]|] eqn:DM; cbn in D; try discriminate.
  assert (o = OMsm r) as -> by congruence. destruct r as [b|r]; [destruct b; discriminate C|].
  destruct (is_bare mode).
  { unfold decode_msm17 in DM. destruct (bare_decode f) as [b|e]; [discriminate|destruct (is_exception e); discriminate]. }
  pose proof DM as DM'. unfold decode_msm17 in DM'. destruct (bare_decode f) as [b|e] eqn:BD; [|destruct (is_exception e); discriminate].
  pose proof (proj1 (bare_decode_iff _ _ _ _ TF) BD) as (m & OK & NE & P & Ca & ->).
  rewrite convert_ok in DM' by assumption. destruct (codes_of _ _) as [codes|] eqn:EC; [|discriminate].
  exists (m_gnss m), (m_type m), r. split; [reflexivity|]. exact (C31_decoded_printable f m codes r OK NE Ca P EC DM).
Qed.

(** ** Messages processed one after the other *)
Section Proc.
Variable ord : list (subprinter world) -> list (subprinter world).

Definition dpw := (decoder * printer_top world * world)%type.
Fixpoint proc (s : dpw) (msgs : list (list Z)) : dpw * res unit :=
  match msgs with
  | [] => (s, Ok tt)
  | m :: r =>
      let '(d, p, w) := s in
      match decode d m with
      | (Err e, d) => ((d, p, w), Err e)
      | (Ok None, d) => proc (d, p, w) r
      | (Ok (Some o), d) =>
          match top_print ord p w o with
          | (p, w, Ok _) => proc (d, p, w) r
          | (p, w, Err e) => ((d, p, w), Err e)
          end
      end
  end.

Lemma proc_app s a b : proc s (a ++ b) = match proc s a with (s, Ok _) => proc s b | r => r end.
Proof.
  revert s. induction a as [|m a IH]; intros [[d p] w]; [reflexivity|]. cbn [app proc].
  destruct (decode d m) as [[[o|]|e] d']; [|apply IH|reflexivity].
  destruct (top_print ord p w o) as [[p' w'] [[]|e]]; [apply IH|reflexivity].
Qed.

Definition state_of (s : run) : dpw := (cv_decoder (r_conv s), cv_printer (r_conv s), r_world s).

Lemma perform_ok {A} o f (s : run) : exists t,
  perform no_faults o f s = (let '((c, w), r) := f (r_conv s, r_world s) in
    ({| r_conv := c; r_world := w; r_trace := t |}, r : res A)).
Proof. eexists. unfold perform, no_faults. destruct (f _) as [[c w] r]. reflexivity. Qed.

Lemma silent_ok o s : exists t,
  silent no_faults o s = ({| r_conv := r_conv s; r_world := r_world s; r_trace := t |}, Ok tt).
Proof. eexists. unfold silent, perform, no_faults. reflexivity. Qed.

Lemma messages_ok' : forall msgs s st', proc (state_of s) msgs = (st', Ok tt) ->
  exists s', messages ord no_faults msgs s = (s', Ok tt) /\ state_of s' = st' /\ cv_framer (r_conv s') = cv_framer (r_conv s).
Proof.
  induction msgs as [|m msgs IH]; intros s st' H.
  { cbn [proc] in H. injection H as <-. exists s. auto. }
  cbn [messages]. unfold andthen at 1.
  destruct (perform_ok ODecode (fun '(c, w) => let '(c0, x) := cv_decode c m in (c0, w, x)) s) as (t & ->).
  unfold cv_decode. unfold state_of in H. cbn [proc] in H. destruct (decode (cv_decoder (r_conv s)) m) as [[[o|]|e] d] eqn:D; [| |discriminate].
  - cbv beta iota zeta. destruct (top_print ord (cv_printer (r_conv s)) (r_world s) o) as [[p w] [[]|e]] eqn:T; [|discriminate].
    unfold andthen at 1.
    match goal with |- context[perform no_faults OPrint ?f ?s1] => destruct (perform_ok OPrint f s1) as (t2 & ->) end.
    cbn [r_conv r_world]. unfold cv_print. cbn [cv_printer]. rewrite T. cbn [cv_framer cv_decoder].
    match goal with |- context[messages ord no_faults msgs ?s2] => destruct (IH s2 st') as (s' & E & S & F) end;
      [unfold state_of; cbn; exact H|]. exists s'. rewrite E. split; [reflexivity|]. split; [exact S|]. rewrite F. reflexivity.
  - cbv beta iota zeta. unfold andthen, ret at 1.
    match goal with |- context[messages ord no_faults msgs ?s2] => destruct (IH s2 st') as (s' & E & S & F) end;
      [unfold state_of; cbn; exact H|]. exists s'. rewrite E. split; [reflexivity|]. split; [exact S|]. rewrite F. reflexivity.
Qed.

Lemma chunks_ok : forall reads size processed s fr ms st',
  size <> 0 -> ~ In [] reads -> feed (cv_framer (r_conv s)) reads = Ok (fr, ms) -> proc (state_of s) ms = (st', Ok tt) ->
  exists s', chunks ord no_faults size processed reads s = (s', Ok tt) /\ state_of s' = st' /\ cv_framer (r_conv s') = fr.
Proof.
  induction reads as [|c reads IH]; intros size processed s fr ms st' Z N F P; cbn [chunks]; unfold andthen at 1.
  - destruct (silent_ok ORead s) as (t & ->). cbn [feed] in F. assert (fr = cv_framer (r_conv s) /\ ms = []) as (-> & ->) by (split; congruence).
    cbn [proc] in P. injection P as <-. eexists. split; [reflexivity|]. split; reflexivity.
  - destruct (silent_ok ORead s) as (t & ->). destruct c as [|b c]; [exfalso; apply N; now left|].
    set (chunk := b :: c) in *. cbn [feed] in F. cbv zeta.
    destruct (catch_message (cv_framer (r_conv s)) chunk) as [[f1 ms1]|e] eqn:CM; [|discriminate]. cbn [bind] in F.
    destruct (feed f1 reads) as [[f2 ms2]|e] eqn:FR; [|discriminate]. cbn [bind] in F.
    assert (fr = f2 /\ ms = ms1 ++ ms2) as (-> & ->) by (split; congruence).
    rewrite proc_app in P. destruct (proc (state_of s) ms1) as [s1 [[]|e]] eqn:P1; [|discriminate].
    unfold andthen at 1.
    match goal with |- context[perform no_faults OParse ?f ?s1] => destruct (perform_ok OParse f s1) as (t2 & ->) end.
    cbn [r_conv r_world]. unfold cv_parse. rewrite CM. unfold andthen at 1.
    match goal with |- context[messages ord no_faults ms1 ?s2] => destruct (messages_ok' ms1 s2 s1) as (s2' & E & S & Fr) end;
      [unfold state_of in *; cbn; exact P1|]. rewrite E. unfold andthen at 1. destruct (silent_ok OStats s2') as (t3 & ->).
    rewrite (proj2 (Z.eqb_neq size 0) Z). unfold andthen at 1, ret at 1. unfold andthen at 1.
    match goal with |- context[silent no_faults OProgress ?s3] => destruct (silent_ok OProgress s3) as (t4 & ->) end.
    match goal with |- context[chunks ord no_faults size ?pr reads ?s4] => destruct (IH size pr s4 f2 ms2 st') as (s5 & E5 & S5 & F5) end.
    + exact Z.
    + intros I. apply N. now right.
    + cbn [r_conv] in *. rewrite Fr. cbn [cv_framer]. exact FR.
    + unfold state_of in S |- *. cbn [r_conv r_world]. rewrite S. exact P.
    + exists s5. auto.
Qed.

Lemma decode_file_ok reads size s fr ms d p w w' :
  (reads <> [] -> size <> 0) -> ~ In [] reads -> feed (cv_framer (r_conv s)) reads = Ok (fr, ms) ->
  proc (state_of s) ms = ((d, p, w), Ok tt) ->
  top_close ord p w = (w', Ok tt) ->
  exists s', decode_rtcm_file ord no_faults (Some (size, reads)) s = (s', Ok true) /\
    r_conv s' = {| cv_framer := fr; cv_decoder := d; cv_printer := p |} /\ r_world s' = w'.
Proof.
  intros Z N F P C.
  assert (CH : forall s0, state_of s0 = state_of s -> cv_framer (r_conv s0) = cv_framer (r_conv s) ->
    exists s', chunks ord no_faults size 0 reads s0 = (s', Ok tt) /\ state_of s' = (d, p, w) /\ cv_framer (r_conv s') = fr).
  { intros s0 S0 F0. destruct reads as [|c reads].
    - cbn [chunks]. unfold andthen. destruct (silent_ok ORead s0) as (t & ->). cbn [feed] in F.
      assert (fr = cv_framer (r_conv s) /\ ms = []) as (-> & ->) by (split; congruence).
      cbn [proc] in P. eexists. split; [reflexivity|]. split; [|exact F0].
      transitivity (state_of s0); [reflexivity|]. congruence.
    - eapply chunks_ok; [apply Z; discriminate|exact N|rewrite F0; exact F|rewrite S0; exact P]. }
  unfold decode_rtcm_file, try_block.
  match goal with |- context[perform no_faults OOpen ?f s] => destruct (perform_ok OOpen f s) as (t & ->) end.
  unfold andthen at 1. match goal with |- context[silent no_faults OLog ?x] => destruct (silent_ok OLog x) as (t1 & ->) end.
  unfold andthen at 1. match goal with |- context[silent no_faults OSize ?x] => destruct (silent_ok OSize x) as (t2 & ->) end.
  match goal with |- context[chunks ord no_faults size 0 reads ?x] => destruct (CH x eq_refl eq_refl) as (s1 & -> & S1 & F1) end.
  unfold finally_block, andthen.
  match goal with |- context[perform no_faults ORelease ?f s1] => destruct (perform_ok ORelease f s1) as (t3 & ->) end.
  unfold state_of in S1. assert (S1' : cv_decoder (r_conv s1) = d /\ cv_printer (r_conv s1) = p /\ r_world s1 = w) by (repeat split; congruence).
  destruct S1' as (E1 & E2 & E3). cbv beta iota. unfold cv_release. rewrite E2, E3, C. 
  match goal with |- context[silent no_faults OLog ?x] => destruct (silent_ok OLog x) as (t4 & ->) end.
  match goal with |- context[silent no_faults OCloseFile ?x] => destruct (silent_ok OCloseFile x) as (t5 & ->) end.
  eexists. split; [reflexivity|]. cbn [r_conv r_world]. split; [|reflexivity].
  destruct (r_conv s1) as [a b e]. cbn in *. subst. reflexivity.
Qed.
End Proc.

(** ** The state after a list of frames *)
Lemma print_session_app ctl a : forall st b, print_session ctl st (a ++ b) =
  let '(st1, r1) := print_session ctl st a in let '(st2, r2) := print_session ctl st1 b in (st2, r1 ++ r2).
Proof.
  induction a as [|[x can] a IH]; intros st b; cbn [app print_session].
  - destruct (print_session ctl st b). reflexivity.
  - destruct (json_print ctl can st x) as [st1 r]. rewrite IH. destruct (print_session ctl st1 a) as [st2 r1].
    destruct (print_session ctl st2 b). reflexivity.
Qed.
Lemma print_all_app ctl a : forall st b, print_all ctl st (a ++ b) =
  match print_all ctl st a with (st, Ok _) => print_all ctl st b | r => r end.
Proof.
  induction a as [|e a IH]; intros st b; cbn [app print_all]; [reflexivity|].
  destruct (margo_print _ _ _ _) as [st1 [[]|x]]; [apply IH|reflexivity].
Qed.
Lemma delivered_snoc fam mode env o : forall objs k,
  delivered_to fam mode env k (objs ++ [o]) =
  delivered_to fam mode env k objs ++ (if same_family (family_of mode o) fam then [(o, env (k + length objs)%nat)] else []).
Proof.
  induction objs as [|x objs IH]; intros k; cbn [app delivered_to length].
  - rewrite app_nil_r, Nat.add_0_r. reflexivity.
  - rewrite IH, <- app_assoc. now rewrite <- Nat.add_succ_comm.
Qed.
Lemma objects_app mode a b : objects mode (a ++ b) = objects mode a ++ objects mode b.
Proof. unfold objects. now rewrite flat_map_app. Qed.

Definition json_mode_ok (mode : string) (o : rtcm_obj) : Prop :=
  exists f, valid_frame f /\ answer (map Register (decoders_of mode)) f = Ok (Some o).
Lemma objects_from mode frames o : Forall valid_frame frames -> In o (objects mode frames) -> json_mode_ok mode o.
Proof.
  intros V I. unfold objects in I. apply in_flat_map in I. destruct I as (f & If & I). rewrite Forall_forall in V.
  destruct (answer _ f) as [[x|]|] eqn:A; cbn in I; try tauto. destruct I as [<-|[]]. exists f. auto.
Qed.
Lemma decoded_ok ctl mode o : json_mode_ok mode o -> object_ok ctl o.
Proof.
  intros (f & V & A). destruct (valid_transport f V) as (payload & crc & TF).
  apply (decoded_object ctl (is_bare mode) _ f payload crc o (mode_standard mode) TF A).
Qed.
Lemma delivered_in fam mode env objs : forall k d, In d (delivered_to fam mode env k objs) -> In (fst d) objs.
Proof.
  induction objs as [|o objs IH]; intros k d I; cbn [delivered_to] in I; [destruct I|].
  apply in_app_or in I. destruct I as [I|I]; [|right; eauto].
  destruct (same_family _ _); [|destruct I]. destruct I as [<-|[]]. now left.
Qed.
Lemma delivered_ok fam ctl mode env frames k : Forall valid_frame frames ->
  Forall (fun e => object_ok ctl (fst e)) (delivered_to fam mode env k (objects mode frames)).
Proof.
  intros V. apply Forall_forall. intros d I. apply delivered_in in I. now apply (decoded_ok ctl mode), (objects_from mode frames).
Qed.

Lemma top_step mode env ctl c ord p w o w' r0 : factory mode true env ctl = Ok (Some c) -> walk ord ->
  pt_printers p = pt_printers (cv_printer c) -> mode_classes mode (class_of o) ->
  print_of (family_of mode o) env ctl w o = (w', r0) -> r0 = Ok tt \/ r0 = Err EAssert ->
  top_print ord p w o = ({| pt_format := pt_format p; pt_printers := pt_printers p; pt_attempts := pt_attempts p + 1;
    pt_succeeded := pt_succeeded p + match r0 with Ok _ => 1 | Err _ => 0 end |}, w', Ok tt).
Proof.
  intros F O E C P R. rewrite (top_print_order mode env ctl c p F E ord (fun l => l) O) by (intros l; apply Permutation_refl).
  destruct (chosen_printer mode env ctl c o F C) as (q & Q & S). rewrite <- E in Q. unfold top_print, print_body.
  rewrite Q, S, P. destruct R as [->| ->]; [reflexivity|]. now rewrite Z.add_0_r.
Qed.

Lemma run_state mode env ctl c ord frames :
  factory mode true env ctl = Ok (Some c) -> walk ord -> controls_ok (box_margo ctl) -> Forall valid_frame frames ->
  let objs := objects mode frames in
  exists p w, proc ord (cv_decoder c, cv_printer c, world_init) frames =
      ((after (map Register (decoders_of mode) ++ map Decode frames), p, w), Ok tt) /\
    pt_printers p = pt_printers (cv_printer c) /\ w_calls w = length objs /\ pt_attempts p = zlen objs /\
    (exists rs, print_session (box_json ctl) json_init (delivered_to JsonFiles mode env 0 objs) = (w_json w, rs) /\
       pt_errors p = refused rs) /\
    (exists hist, Forall2 is_event hist (delivered_to ObsFiles mode env 0 objs) /\ Forall event_ok hist /\
       print_all (box_margo ctl) margo_init hist = (w_margo w, Ok tt)).
Proof.
  intros F O C. induction frames as [|f frames IH] using rev_ind; intros V; cbv zeta.
  { destruct (factory_inv _ _ _ _ _ F) as (_ & _ & _ & D & _ & A & B). exists (cv_printer c), world_init.
    cbn [map proc objects flat_map delivered_to]. rewrite app_nil_r, D. split; [reflexivity|]. split; [reflexivity|]. split; [reflexivity|].
    split; [exact A|]. split; [exists []; split; [reflexivity|unfold pt_errors; rewrite A, B; reflexivity]|].
    exists []. split; [constructor|]. split; [constructor|reflexivity]. }
  apply Forall_app in V. destruct V as [V Vf]. assert (Vf' : valid_frame f) by (now inversion Vf). clear Vf.
  destruct (IH V) as (p & w & P & PP & WC & PA & (rs & J & JE) & (hist & HE & HO & HP)). clear IH.
  pose proof (valid_frame_bytes f Vf') as B. rewrite proc_app, P. cbn [proc]. rewrite map_app. cbn [map]. rewrite app_assoc, after_snoc. cbn [after_event].
  pose proof (answer_same (map Register (decoders_of mode)) frames f) as A0. unfold answer at 1 in A0.
  destruct (decode (after (map Register (decoders_of mode) ++ map Decode frames)) f) as [rr d] eqn:D. cbn [fst snd] in *.
  rewrite objects_app. unfold objects at 2 4 6 8. cbn [flat_map]. rewrite <- A0, app_nil_r. symmetry in A0.
  set (objs := objects mode frames) in *.
  destruct (C12_standard _ _ _ (mode_standard mode) B) as [N|(o & n & A' & _ & _)].
  { assert (rr = Ok None) as -> by congruence. rewrite app_nil_r. exists p, w. repeat (split; [assumption || reflexivity|]).
    split; [exists rs; auto|]. exists hist; auto. }
  assert (rr = Ok (Some o)) as -> by congruence. clear A'.
  pose proof (answer_class mode env ctl c f o F B A0) as MC.
  rewrite !delivered_snoc, !app_length. cbn [length]. rewrite Nat.add_0_l.
  assert (L1 : (length objs + 1 = Datatypes.S (length objs))%nat) by lia. rewrite L1.
  assert (ZL : zlen (objs ++ [o]) = zlen objs + 1) by (unfold zlen; rewrite app_length; cbn [length]; lia). rewrite ZL.
  destruct (family_of mode o) eqn:FA; cbn [same_family]; rewrite !app_nil_r.
  - (* observations *)
    assert (CO : class_of o = "ObservablesMSM").
    { unfold family_of in FA. destruct (String.eqb_spec (class_of o) "ObservablesMSM") as [E|]; [exact E|discriminate]. }
    destruct (answer_scaled mode f o Vf' A0 CO) as (g & t & r & -> & PR).
    set (e := {| pe_gnss := g; pe_type := t; pe_obs := r; pe_can_create := env (length objs) |}).
    assert (HO' : Forall event_ok (hist ++ [e])) by (apply Forall_app; split; [exact HO|apply Forall_cons; [exact PR|constructor]]).
    destruct (C32_files (box_margo ctl) (hist ++ [e]) C HO') as (st & PA' & _). pose proof PA' as PA2. rewrite print_all_app, HP in PA2. cbn [print_all e pe_obs pe_can_create] in PA2.
    destruct (margo_print (box_margo ctl) (env (length objs)) (w_margo w) (OMsm (MsmScaled r))) as [st1 [[]|x]] eqn:MP; [|discriminate].
    assert (st1 = st) as -> by congruence. clear PA2.
    assert (PO : print_of (family_of mode (OMsm (MsmScaled r))) env ctl w (OMsm (MsmScaled r)) =
       ({| w_margo := st; w_json := w_json w; w_calls := Datatypes.S (w_calls w) |}, Ok tt)).
    { rewrite FA. cbn [print_of]. now rewrite WC, MP. }
    rewrite (top_step mode env ctl c ord p w _ _ _ F O PP MC PO (or_introl eq_refl)).
    eexists. eexists. split; [reflexivity|]. cbn [pt_printers pt_attempts w_calls w_json w_margo]. split; [exact PP|].
    split; [now rewrite WC|]. split; [now rewrite PA|]. split.
    + exists rs. split; [exact J|]. unfold pt_errors in *. cbn [pt_attempts pt_succeeded]. lia.
    + exists (hist ++ [e]). split; [|split; [exact HO'|exact PA']].
      apply Forall2_app; [exact HE|]. constructor; [|constructor]. split; reflexivity.
  - (* the rest *)
    pose proof (delivered_ok JsonFiles (box_json ctl) mode env frames 0 V) as DOK. fold objs in DOK.
    destruct (json_print (box_json ctl) (env (length objs)) (w_json w) o) as [st' r] eqn:JP.
    destruct (C33_refused_only (box_json ctl) json_init _ _ _ o _ _ _ eq_refl DOK J (decoded_ok _ mode o (ex_intro _ f (conj Vf' A0))) JP)
      as (num & s & NO & SP & R).
    assert (R' : r = Ok tt \/ r = Err EAssert) by (destruct R as [R|(R & _)]; auto).
    assert (PO : print_of (family_of mode o) env ctl w o =
       ({| w_margo := w_margo w; w_json := st'; w_calls := Datatypes.S (w_calls w) |}, r)).
    { rewrite FA. cbn [print_of]. now rewrite WC, JP. }
    rewrite (top_step mode env ctl c ord p w _ _ _ F O PP MC PO R').
    eexists. eexists. split; [reflexivity|]. cbn [pt_printers pt_attempts w_calls w_json w_margo]. split; [exact PP|].
    split; [now rewrite WC|]. split; [now rewrite PA|]. split.
    + exists (rs ++ [r]). split; [rewrite print_session_app, J; cbn [print_session]; rewrite JP; reflexivity|].
      unfold refused in *. rewrite filter_app. unfold zlen in *. rewrite app_length. unfold pt_errors in *. cbn [pt_attempts pt_succeeded].
      destruct R' as [->| ->]; cbn [filter length]; lia.
    + exists hist. auto.
Qed.

Lemma close_printers mode env ctl c ord p w : factory mode true env ctl = Ok (Some c) -> walk ord ->
  pt_printers p = pt_printers (cv_printer c) -> forall js mg,
  (mode = "MARGO" -> w_json w = json_init) -> (mode <> "MARGO" -> mode <> "JARGO" -> w_margo w = margo_init) ->
  json_close (w_json w) = js -> margo_close (w_margo w) = mg ->
  top_close ord p w = ({| w_margo := mg; w_json := js; w_calls := w_calls w |}, Ok tt).
Proof.
  intros F O E js mg HM HJ <- <-. unfold top_close. rewrite E. destruct (factory_inv _ _ _ _ _ F) as (_ & M & _ & _ & PR & _).
  assert (P1 : forall q, pt_printers (cv_printer c) = [q] -> ord [q] = [q]).
  { intros q _. apply Permutation_length_1_inv. apply O. }
  destruct w as [m j k]. cbn [w_json w_margo w_calls] in *.
  destruct M as [<-|[<-|[<-|[<-|[]]]]]; unfold printers_of in PR.
  - specialize (HM eq_refl). subst j. destruct (pt_printers (cv_printer c)) as [|q [|q' l]]; try discriminate. rewrite (P1 q eq_refl).
    cbn in PR. assert (Q : Ok q = Ok (A := subprinter world) q) by reflexivity. injection PR as ->. reflexivity.
  - specialize (HJ ltac:(discriminate) ltac:(discriminate)). subst m. destruct (pt_printers (cv_printer c)) as [|q [|q' l]]; try discriminate. rewrite (P1 q eq_refl).
    cbn in PR. injection PR as ->. reflexivity.
  - specialize (HJ ltac:(discriminate) ltac:(discriminate)). subst m. destruct (pt_printers (cv_printer c)) as [|q [|q' l]]; try discriminate. rewrite (P1 q eq_refl).
    cbn in PR. injection PR as ->. reflexivity.
  - destruct (pt_printers (cv_printer c)) as [|q [|q' [|q'' l]]]; try discriminate. cbn in PR. injection PR as -> ->.
    match goal with |- context[ord [?a; ?b]] => pose proof (O [a; b]) as PE; apply Permutation_length_2_inv in PE; destruct PE as [-> | ->] end; reflexivity.
Qed.
