(** * PropertiesPieces: C71 - products depend on the messages only; C72 - a recording can be converted in parts. *)
From Coq Require Import Permutation.
From Verif Require Import PyBase PyDict PyFloat PyVal BitsModel MessageSpec FramerModel FramerSpec FramerProofs FramerTheorems PropertiesStream MsmModel MsmSpec
  TestData DecoderModel DecoderSpec DecoderProofs PropertiesDecoder
  JsonModel JsonSpec JsonFileSpec JsonFiles JsonDecoded PropertiesJson MargoModel MargoSpec MargoProofs MargoFiles PropertiesMargo
  PrinterModel PrinterSpec PrinterProofs PropertiesPrinter MainModel MainSpec MainProofs NamesSpec NamesProofs PropertiesMain PropertiesFiles PiecesSpec.
Local Open Scope string_scope.
Local Open Scope list_scope.
Local Open Scope Z_scope.

(** ** C71: the products depend on the messages only *)

Lemma regular_size (content : list Z) : content <> [] -> zlen content <> 0.
Proof. unfold zlen. destruct content; [congruence|cbn [length]; lia]. Qed.

(** Two files in which the same messages can be found, in the same order, give the same
    products, whatever lies between the messages. *)
Theorem C71_messages : forall mode env ctl c ord a b segs segs' rest rest',
  factory mode true env ctl = Ok (Some c) -> walk ord -> controls_ok (box_margo ctl) ->
  bytes_ok a -> bytes_ok b -> scans a segs rest -> scans b segs' rest' -> frames_of segs = frames_of segs' ->
  let '(s, r) := decode_rtcm_file ord no_faults (regular_file a) (started c) in
  let '(s', r') := decode_rtcm_file ord no_faults (regular_file b) (started c) in
  r = Ok true /\ r' = Ok true /\ output_files (r_world s) = output_files (r_world s').
Proof.
  intros mode env ctl c ord a b segs segs' rest rest' F O C BA BB SA SB FE. unfold regular_file.
  destruct (conversion mode env ctl c ord _ _ a segs rest F O C BA (regular_reads a) (regular_size a) SA)
    as (s & D & (st & rs & J & WJ & _) & (hist & m & HE & _ & HP & WM)).
  destruct (conversion mode env ctl c ord _ _ b segs' rest' F O C BB (regular_reads b) (regular_size b) SB)
    as (s' & D' & (st' & rs' & J' & WJ' & _) & (hist' & m' & HE' & _ & HP' & WM')).
  rewrite D, D'. split; [reflexivity|]. split; [reflexivity|]. rewrite <- FE in J', HE'.
  assert (st' = st) as -> by congruence.
  rewrite (print_all_ext _ _ _ _ _ HE' HE) in HP'. assert (m' = m) as -> by congruence.
  unfold output_files. rewrite WJ, WJ', WM, WM'. reflexivity.
Qed.
Print Assumptions C71_messages.

Lemma quiet_scans s segs rest : scans s segs rest -> forall noise, quiet noise s -> scans (noise ++ s) (map Junk noise ++ segs) rest.
Proof.
  intros S. induction noise as [|b n IH]; intros Q; [exact S|]. cbn [app map].
  destruct (Q [] (b :: n) eq_refl ltac:(discriminate)) as (V & P). constructor; [exact P|exact V|].
  apply IH. intros x y E. apply (Q (b :: x) y). now rewrite E.
Qed.
Lemma scans_exists s : bytes_ok s -> exists segs rest, scans s segs rest.
Proof.
  intros B. destruct (C06_framing_reference [s]) as (_ & segs & rest & _ & S & _); [constructor; [exact B|constructor]|].
  cbn [concat] in S. rewrite app_nil_r in S. now exists segs, rest.
Qed.
Lemma noise_scans p noise s segsp : bytes_ok s -> scans p segsp [] -> quiet noise s ->
  exists segs segs' rest, scans (p ++ noise ++ s) segs rest /\ scans (p ++ s) segs' rest /\ frames_of segs = frames_of segs'.
Proof.
  intros B P Q. destruct (scans_exists s B) as (segs & rest & S).
  exists (segsp ++ map Junk noise ++ segs), (segsp ++ segs), rest. split; [|split].
  - eapply scans_app; [exact P|]. cbn [app]. now apply quiet_scans.
  - eapply scans_app; [exact P|exact S].
  - rewrite (frames_of_app segsp segs), frames_of_app, frames_of_junk. reflexivity.
Qed.

(** Noise between two messages does not change any product. *)
Theorem C71_noise : forall mode env ctl c ord before noise after segs,
  factory mode true env ctl = Ok (Some c) -> walk ord -> controls_ok (box_margo ctl) ->
  bytes_ok (before ++ noise ++ after) -> scans before segs [] -> quiet noise after ->
  let '(s, r) := decode_rtcm_file ord no_faults (regular_file (before ++ noise ++ after)) (started c) in
  let '(s', r') := decode_rtcm_file ord no_faults (regular_file (before ++ after)) (started c) in
  r = Ok true /\ r' = Ok true /\ output_files (r_world s) = output_files (r_world s').
Proof.
  intros mode env ctl c ord p noise s segsp F O C B P Q.
  apply bytes_ok_app in B as (B1 & B). apply bytes_ok_app in B as (B2 & B3).
  destruct (noise_scans p noise s segsp B3 P Q) as (sg & sg' & rest & S1 & S2 & E).
  apply (C71_messages mode env ctl c ord _ _ sg sg' rest rest); auto.
  - apply bytes_ok_app. split; [exact B1|]. apply bytes_ok_app. now split.
  - apply bytes_ok_app. now split.
Qed.
Print Assumptions C71_noise.

Lemma damaged_shape f f' : valid_frame f -> damaged f f' -> frame_shape f' /\ ~ valid_frame f'.
Proof.
  intros V (B & L & H & E). split.
  - pose proof (valid_frame_shape f V) as (h1 & h2 & body & -> & H1 & H2 & Hl).
    destruct f' as [|x [|y [|z body']]]; cbn [length] in L; try lia.
    cbn [firstn] in H. inversion H; subst. exists h1, h2, body'. repeat split; auto; try lia. unfold zlen in *. lia.
  - intros V'. pose proof (C05_errors_detected f f' [] V B ltac:(constructor) L H E) as X.
    rewrite (C05_valid_accepted f' [] V' ltac:(constructor)) in X. discriminate.
Qed.
Lemma damaged_quiet f f' s : valid_frame f -> damaged f f' -> bytes_ok s -> ~ In 0xD3 (tl f') -> quiet f' s.
Proof.
  intros V D BS N x y E NE. destruct (damaged_shape f f' V D) as (SH & NV).
  destruct x as [|x0 x].
  - cbn [app] in E. subst y. split.
    + intros (g & t & G & VG). assert (g = f') as ->; [|contradiction].
      exact (proj1 (frame_shape_prefix_eq g f' t s (valid_frame_shape _ VG) SH (eq_sym G))).
    + intros (_ & e & NE' & SE). rewrite <- app_assoc in SE. pose proof (frame_shape_prefix_eq (f' ++ s ++ e) f' [] (s ++ e) SE SH) as X.
      rewrite app_nil_r in X. specialize (proj1 (X eq_refl)) as Y. clear X. rename Y into X. apply (f_equal (@length _)) in X. rewrite !app_length in X.
      destruct e; [congruence|cbn [length] in X; lia].
  - destruct y as [|y0 y]; [congruence|]. assert (I : In y0 (tl f')) by (rewrite E; cbn [app tl]; apply in_or_app; right; now left).
    assert (y0 <> 0xD3) as ND by (intros ->; contradiction).
    destruct (not_cand_junk ((y0 :: y) ++ s)) as (A1 & A2); [|discriminate|apply not_cand_nonD3; exact ND|now split].
    apply bytes_ok_app. split; [|exact BS]. destruct D as (B & _). rewrite E in B. apply bytes_ok_app in B. tauto.
Qed.

(** A message damaged on the way costs that message and no other: the products are those of the
    file without it.  (The bytes of the damaged message behind its first must not happen to be
    0xD3, the byte that begins a message: see C10 for what happens then.) *)
Theorem C71_damage : forall mode env ctl c ord before sent received after segs,
  factory mode true env ctl = Ok (Some c) -> walk ord -> controls_ok (box_margo ctl) ->
  bytes_ok before -> bytes_ok after -> scans before segs [] ->
  valid_frame sent -> damaged sent received -> ~ In 0xD3 (tl received) ->
  let '(s, r) := decode_rtcm_file ord no_faults (regular_file (before ++ received ++ after)) (started c) in
  let '(s', r') := decode_rtcm_file ord no_faults (regular_file (before ++ after)) (started c) in
  r = Ok true /\ r' = Ok true /\ output_files (r_world s) = output_files (r_world s').
Proof.
  intros mode env ctl c ord p f f' s segs F O C B1 B2 P V D N.
  apply (C71_noise mode env ctl c ord p f' s segs F O C); [|exact P|now apply (damaged_quiet f)].
  apply bytes_ok_app. split; [exact B1|]. apply bytes_ok_app. split; [apply D|exact B2].
Qed.
Print Assumptions C71_damage.

(** Any damage at all - bytes changed, lost or inserted in any number - costs the messages it
    touches and no other, if at least 1028 bytes follow and if the damage does not by chance
    produce a message with a matching CRC. *)
Theorem C71_any_damage : forall mode env ctl c ord before received after segs,
  factory mode true env ctl = Ok (Some c) -> walk ord -> controls_ok (box_margo ctl) ->
  bytes_ok (before ++ received ++ after) -> scans before segs [] -> 1028 <= zlen after ->
  (forall a b, received = a ++ b -> b <> [] -> ~ starts_valid (b ++ after)) ->
  let '(s, r) := decode_rtcm_file ord no_faults (regular_file (before ++ received ++ after)) (started c) in
  let '(s', r') := decode_rtcm_file ord no_faults (regular_file (before ++ after)) (started c) in
  r = Ok true /\ r' = Ok true /\ output_files (r_world s) = output_files (r_world s').
Proof.
  intros mode env ctl c ord p x s segs F O C B P L V. apply (C71_noise mode env ctl c ord p x s segs F O C B P).
  intros a b E NE. split; [exact (V a b E NE)|]. intros PD. apply pending_length in PD. unfold zlen in *. rewrite app_length in PD.
  destruct b; [congruence|cbn [length] in PD; lia].
Qed.
Print Assumptions C71_any_damage.

(** ** C72: a recording can be converted in parts *)

Definition extend (h : list Z) (rows : list (list Z)) (prev : option (list Z)) : option (list Z) :=
  match rows with [] => prev | _ => Some (match prev with Some c => c | None => h end ++ concat rows) end.
Lemma extend_app h a b prev : extend h (a ++ b) prev = extend h b (extend h a prev).
Proof.
  destruct a as [|x a]; [reflexivity|]. destruct b as [|y b]; [now rewrite app_nil_r|].
  unfold extend. cbn [app]. f_equal. rewrite <- app_assoc. f_equal. change (x :: a ++ y :: b) with ((x :: a) ++ (y :: b)). now rewrite concat_app.
Qed.

Section Rows.
Variable ctl : margo_controls.
Hypothesis C : controls_ok ctl.
Variables (g : gnss) (p : param) (sgn : string) (t : msm_type) (h1 h2 : list Z).
Hypothesis K : known g sgn.
Hypothesis HH : make_header ctl (obs_file g p sgn t) = Ok (h1, h2).

Lemma one_row x g0 t0 : printable g0 t0 x -> exists rows, forall ok st, (forall n, ok n = true) -> inv st ->
  exists st', margo_print ctl ok st (OMsm (MsmScaled x)) = (st', Ok tt) /\ inv st' /\
    sget (mg_files st') (obs_path g p sgn t) = extend (h1 ++ h2) rows (sget (mg_files st) (obs_path g p sgn t)).
Proof.
  intros OK. destruct (buffer_names ctl g0 t0 x OK) as (ND & NM).
  exists (if gnss_eq_dec g0 g then if type_eq_dec t0 t then
            match sget (buffer_of ctl g0 t0 x) (obs_file g p sgn t) with Some row => [row_text p row] | None => [] end else [] else []).
  intros ok st A I. cbn [margo_print]. unfold print_observables. rewrite (to_print_buffer_ok ctl g0 t0 x C OK).
  destruct (append_rows_ok ctl ok g0 t0 C (buffer_of ctl g0 t0 x) st I ND NM) as (st' & E & I' & P1 & P2).
  exists st'. split; [exact E|]. split; [exact I'|].
  destruct (gnss_eq_dec g0 g) as [->|NG]; [|apply P1; [exact K|left; congruence]].
  destruct (type_eq_dec t0 t) as [->|NT]; [|apply P1; [exact K|right; congruence]].
  rewrite (P2 p sgn h1 h2 K HH), A. destruct (sget (buffer_of ctl g t x) (obs_file g p sgn t)) as [row|]; [|reflexivity].
  unfold upd, extend. cbn [concat]. rewrite app_nil_r. destruct (sget (mg_files st) (obs_path g p sgn t)); reflexivity.
Qed.

Lemma all_rows : forall objs, Forall (fun o => exists e, o = OMsm (MsmScaled (pe_obs e)) /\ event_ok e) objs ->
  exists rows, forall hist st, history_of objs hist -> inv st ->
  exists st', print_all ctl st hist = (st', Ok tt) /\ inv st' /\
    sget (mg_files st') (obs_path g p sgn t) = extend (h1 ++ h2) rows (sget (mg_files st) (obs_path g p sgn t)).
Proof.
  induction objs as [|o objs IH]; intros A.
  - exists []. intros hist st (M & _) I. apply map_eq_nil in M. subst hist. exists st. auto.
  - inversion A as [|? ? (e0 & -> & OK) A']; subst. destruct (IH A') as (rows & R). destruct (one_row _ _ _ OK) as (row & R0).
    exists (row ++ rows). intros [|e hist] st (M & F) I; [discriminate|]. cbn [map] in M. inversion F as [|? ? (OKe & CR) F']; subst.
    injection M as X M. destruct (R0 (pe_can_create e) st CR I) as (st1 & E1 & I1 & S1).
    cbn [print_all]. rewrite X, E1. destruct (R hist st1 (conj M F') I1) as (st' & E' & I' & S'). exists st'. split; [exact E'|]. split; [exact I'|].
    now rewrite S', S1, extend_app.
Qed.
End Rows.

(** The observations of a run, as a history. *)
Lemma margo_run mode env ctl c ord content segs rest s r :
  factory mode true env ctl = Ok (Some c) -> walk ord -> controls_ok (box_margo ctl) ->
  bytes_ok content -> scans content segs rest -> (forall n p, env n p = true) ->
  decode_rtcm_file ord no_faults (regular_file content) (started c) = (s, r) ->
  exists hist st, history_of (observations mode (objects mode (frames_of segs))) hist /\
    print_all (box_margo ctl) margo_init hist = (st, Ok tt) /\ mg_files (w_margo (r_world s)) = mg_files st.
Proof.
  intros F O C B S EN DE. unfold regular_file in DE.
  destruct (conversion mode env ctl c ord _ _ content segs rest F O C B (regular_reads content) (regular_size content) S)
    as (s' & D & _ & (hist & st & HE & HO & HP & WM)).
  assert (s' = s) as -> by congruence. set (objs := objects mode (frames_of segs)) in *.
  assert (CA : forall e, In e hist -> forall n, pe_can_create e n = true).
  { clear - HE EN. generalize dependent 0%nat. induction objs as [|o l IH] in hist |- *; intros k HE e I n; cbn [delivered_to] in HE.
    - inversion HE; subst. destruct I.
    - destruct (same_family _ _); cbn [app] in HE; [|eapply IH; eauto]. inversion HE as [|e0 d h l0 (_ & X) HE']; subst. cbn [snd] in X.
      destruct I as [<-|I]; [rewrite X; apply EN|eapply IH; eauto]. }
  exists hist, st. split; [split|split; [exact HP|now rewrite WM]].
  - unfold observations. rewrite <- (delivered_objects ObsFiles mode env objs 0). clear - HE.
    induction HE as [|e d hist l (X & _) HE IH]; [reflexivity|]. cbn [map]. now rewrite X, IH.
  - rewrite Forall_forall in HO |- *. intros e I. split; [exact (HO e I)|exact (CA e I)].
Qed.

Lemma history_app a b hist : history_of (a ++ b) hist -> exists h1 h2, hist = h1 ++ h2 /\ history_of a h1 /\ history_of b h2.
Proof.
  intros (M & F). apply map_eq_app in M. destruct M as (h1 & h2 & -> & M1 & M2). apply Forall_app in F as (F1 & F2).
  exists h1, h2. repeat split; auto.
Qed.
Lemma history_events objs hist : history_of objs hist -> Forall (fun o => exists e, o = OMsm (MsmScaled (pe_obs e)) /\ event_ok e) objs.
Proof.
  intros (<- & F). apply Forall_forall. intros o I. apply in_map_iff in I. destruct I as (e & <- & I). rewrite Forall_forall in F.
  exists e. split; [reflexivity|apply (F e I)].
Qed.
Lemma print_all_app ctl : forall a b st, print_all ctl st (a ++ b) = match print_all ctl st a with (st, Ok _) => print_all ctl st b | r => r end.
Proof.
  induction a as [|e a IH]; intros b st; [reflexivity|]. cbn [app print_all].
  destruct (margo_print ctl (pe_can_create e) st _) as [st1 [[]|x]]; [apply IH|reflexivity].
Qed.

Lemma joined_margo ctl g p sgn t objsa objsb ha hb hab sa sb sab : controls_ok ctl -> known g sgn ->
  history_of objsa ha -> history_of objsb hb -> history_of (objsa ++ objsb) hab ->
  print_all ctl margo_init ha = (sa, Ok tt) -> print_all ctl margo_init hb = (sb, Ok tt) -> print_all ctl margo_init hab = (sab, Ok tt) ->
  let file st := sget (mg_files st) (obs_path g p sgn t) in
  joined_obs ctl g p sgn (file sa) (file sb) (file sab).
Proof.
  intros C K HA HB HAB PA PB PAB file. destruct (header_ok ctl g p sgn t C K) as (h1 & h2 & HH & HD1 & HD2).
  destruct (all_rows ctl C g p sgn t h1 h2 K HH objsa (history_events _ _ HA)) as (ra & RA).
  destruct (all_rows ctl C g p sgn t h1 h2 K HH objsb (history_events _ _ HB)) as (rb & RB).
  destruct (history_app _ _ _ HAB) as (ha' & hb' & -> & HA' & HB').
  destruct (RA ha margo_init HA inv_init) as (s1 & E1 & _ & S1). assert (s1 = sa) as -> by congruence.
  destruct (RB hb margo_init HB inv_init) as (s2 & E2 & _ & S2). assert (s2 = sb) as -> by congruence.
  destruct (RA ha' margo_init HA' inv_init) as (s3 & E3 & I3 & S3).
  destruct (RB hb' s3 HB' I3) as (s4 & E4 & _ & S4). rewrite print_all_app, E3 in PAB. assert (s4 = sab) as -> by congruence.
  unfold file. rewrite S4, S3, S1, S2. change (sget (mg_files margo_init) (obs_path g p sgn t)) with (@None (list Z)).
  clear - HD1 HD2. destruct ra as [|a ra]; [reflexivity|]. destruct rb as [|b rb]; [reflexivity|]. unfold extend, joined_obs.
  exists h1, h2, (concat (a :: ra)), (concat (b :: rb)). rewrite <- !app_assoc. split; [exact HD1|]. split; [exact HD2|]. split; [reflexivity|]. split; reflexivity.
Qed.

(** The objects with one message number are of one class in a run. *)
Lemma numbered_class mode num frames o : Forall valid_frame frames -> In o (numbered mode num (objects mode frames)) ->
  DecoderSpec.announced (is_bare mode) num = Some (class_of o).
Proof.
  intros V I. apply filter_In in I. destruct I as (I & E). apply andb_true_iff in E as (_ & E).
  destruct (objects_from _ _ _ V I) as (f & Vf & A). destruct (valid_transport f Vf) as (payload & crc & T).
  destruct (C33_decoded_ok (sample_controls false) (is_bare mode) _ _ _ _ _ (mode_standard mode) T A) as (_ & n & N & NO).
  rewrite NO in E. apply Z.eqb_eq in E. subst n.
  destruct (C12_standard (is_bare mode) _ f (mode_standard mode) (valid_frame_bytes _ Vf)) as [X|(o' & n & A' & N' & AN)]; [congruence|].
  assert (o' = o) as -> by congruence. now rewrite (has_number_fun _ _ _ N N').
Qed.

(** The files of one conversion. *)
Lemma run_files mode env ctl c ord content segs rest s r :
  factory mode true env ctl = Ok (Some c) -> walk ord -> controls_ok (box_margo ctl) ->
  bytes_ok content -> scans content segs rest -> (forall n p, env n p = true) ->
  decode_rtcm_file ord no_faults (regular_file content) (started c) = (s, r) ->
  r = Ok true /\
  (forall g p sgn t, sget (output_files (r_world s)) (obs_path g p sgn t) = sget (mg_files (w_margo (r_world s))) (obs_path g p sgn t)) /\
  (forall num e, zget JSON_SPEC num = Some e ->
     match numbered mode num (objects mode (frames_of segs)) with
     | [] => sget (output_files (r_world s)) (json_path e) = None
     | x :: l => exists text, sget (output_files (r_world s)) (json_path e) = Some text /\ read_json text = Some (document (box_json ctl) x l)
     end) /\
  (forall path, sget (output_files (r_world s)) path <> None ->
     (exists num e, zget JSON_SPEC num = Some e /\ path = json_path e) \/ (exists g p sgn t, known g sgn /\ path = obs_path g p sgn t)).
Proof.
  intros F O C B S EN DE. unfold regular_file in DE.
  destruct (C38_json_files mode env ctl c ord _ _ content segs rest F O C B (regular_reads content) (regular_size content) S EN) as (s0 & D & JF & JO).
  destruct (C38_obs_files mode env ctl c ord _ _ content segs rest F O C B (regular_reads content) (regular_size content) S EN) as (s1 & hist & D' & _ & _ & OO).
  assert (s0 = s /\ r = Ok true) as (-> & ->) by (split; congruence). assert (s1 = s) as -> by congruence. clear D' D.
  unfold output_files.
  assert (JN : forall num e, zget JSON_SPEC num = Some e -> sget (mg_files (w_margo (r_world s))) (json_path e) = None).
  { intros num e E. destruct (sget (mg_files (w_margo (r_world s))) (json_path e)) eqn:X; [|reflexivity].
    destruct (OO (json_path e)) as (g & p & sgn & t & _ & Y); [congruence|]. destruct (C36_jargo_files_distinct num e g p sgn t E Y). }
  assert (ON : forall g p sgn t, sget (jp_files (w_json (r_world s))) (obs_path g p sgn t) = None).
  { intros g p sgn t. apply JO. intros num e E. now apply (C36_jargo_files_distinct num e). }
  split; [reflexivity|]. split; [|split].
  - intros g p sgn t. rewrite sget_app, ON. now destruct (sget _ _).
  - intros num e E. rewrite sget_app, (JN num e E). specialize (JF num e E). unfold holds in JF. destruct (numbered mode num _); exact JF.
  - intros path. rewrite sget_app. destruct (sget (mg_files (w_margo (r_world s))) path) eqn:X.
    + intros _. right. apply OO. congruence.
    + intros Y. left. destruct (existsb (fun e => String.eqb (json_path (snd e)) path) JSON_SPEC) eqn:EX.
      * apply existsb_exists in EX. destruct EX as ((num & e) & I & E). cbn [snd] in E. apply String.eqb_eq in E.
        assert (ND : forallb (fun x => match zget JSON_SPEC (fst x) with Some e => String.eqb (json_path e) (json_path (snd x)) | None => false end) JSON_SPEC = true) by (vm_compute; reflexivity).
        rewrite forallb_forall in ND. specialize (ND _ I). cbn [fst snd] in ND.
        destruct (zget JSON_SPEC num) as [e'|] eqn:E'; [|discriminate]. apply String.eqb_eq in ND. exists num, e'. split; [exact E'|congruence].
      * destruct Y. apply JO. intros num e E Q. apply (dget_In Z.eqb z_eqb_spec) in E.
        assert (TT : existsb (fun e => String.eqb (json_path (snd e)) path) JSON_SPEC = true) by (apply existsb_exists; exists (num, e); split; [exact E|cbn; now apply String.eqb_eq]).
        congruence.
Qed.

(** A recording [a ++ b], cut between two messages: every product of the whole is the product of
    the first part followed by that of the second, with one header (one line with the type in a
    JSON file); there are no other products. *)
Theorem C72_parts : forall mode env ctl c ord a b segs,
  factory mode true env ctl = Ok (Some c) -> walk ord -> controls_ok (box_margo ctl) -> (forall n p, env n p = true) ->
  bytes_ok a -> bytes_ok b -> scans a segs [] ->
  let run x := decode_rtcm_file ord no_faults (regular_file x) (started c) in
  let file x path := sget (output_files (r_world (fst (run x)))) path in
  (snd (run a) = Ok true /\ snd (run b) = Ok true /\ snd (run (a ++ b)) = Ok true) /\
  (forall g p sgn t, known g sgn ->
     let path := obs_path g p sgn t in joined_obs (box_margo ctl) g p sgn (file a path) (file b path) (file (a ++ b) path)) /\
  (forall num sub name, json_place num sub name ->
     let path := (sub ++ "/" ++ name)%string in joined_json (file a path) (file b path) (file (a ++ b) path)) /\
  (forall path, file (a ++ b) path <> None -> file a path <> None \/ file b path <> None).
Proof.
  intros mode env ctl c ord a b segsa F O C EN BA BB SA run file.
  destruct (scans_exists b BB) as (segsb & rest & SB).
  assert (SAB : scans (a ++ b) (segsa ++ segsb) rest) by (eapply scans_app; [exact SA|exact SB]).
  assert (BAB : bytes_ok (a ++ b)) by (apply bytes_ok_app; now split).
  unfold file, run. clear file run.
  destruct (decode_rtcm_file ord no_faults (regular_file a) (started c)) as [sa ra] eqn:DA.
  destruct (decode_rtcm_file ord no_faults (regular_file b) (started c)) as [sb rb] eqn:DB.
  destruct (decode_rtcm_file ord no_faults (regular_file (a ++ b)) (started c)) as [sab rab] eqn:DAB. cbn [fst snd].
  destruct (run_files mode env ctl c ord a _ _ sa ra F O C BA SA EN DA) as (RA & OA & JA & _).
  destruct (run_files mode env ctl c ord b _ _ sb rb F O C BB SB EN DB) as (RB & OB & JB & _).
  destruct (run_files mode env ctl c ord (a ++ b) _ _ sab rab F O C BAB SAB EN DAB) as (RAB & OAB & JAB & PAB).
  destruct (margo_run mode env ctl c ord a _ _ sa ra F O C BA SA EN DA) as (ha & ma & HA & PA & WA).
  destruct (margo_run mode env ctl c ord b _ _ sb rb F O C BB SB EN DB) as (hb & mb & HB & PB & WB).
  destruct (margo_run mode env ctl c ord (a ++ b) _ _ sab rab F O C BAB SAB EN DAB) as (hab & mab & HAB & PAB' & WAB).
  assert (OJ : forall g p sgn t, known g sgn -> joined_obs (box_margo ctl) g p sgn (sget (output_files (r_world sa)) (obs_path g p sgn t))
     (sget (output_files (r_world sb)) (obs_path g p sgn t)) (sget (output_files (r_world sab)) (obs_path g p sgn t))).
  { intros g p sgn t K. rewrite OA, OB, OAB, WA, WB, WAB.
    rewrite frames_of_app, objects_app in HAB. unfold observations in HAB. rewrite filter_app in HAB.
    exact (joined_margo (box_margo ctl) g p sgn t _ _ ha hb hab ma mb mab C K HA HB HAB PA PB PAB'). }
  pose proof (scans_frames_valid _ _ _ SA) as VA. pose proof (scans_frames_valid _ _ _ SB) as VB.
  assert (JJ : forall num e, zget JSON_SPEC num = Some e -> joined_json (sget (output_files (r_world sa)) (json_path e))
     (sget (output_files (r_world sb)) (json_path e)) (sget (output_files (r_world sab)) (json_path e))).
  { intros num e E. specialize (JA num e E). specialize (JB num e E). specialize (JAB num e E).
    rewrite frames_of_app, objects_app in JAB. unfold numbered in JAB. rewrite filter_app in JAB.
    pose proof (fun o => numbered_class mode num (frames_of segsa) o VA) as CA. pose proof (fun o => numbered_class mode num (frames_of segsb) o VB) as CB.
    change (filter _ (objects mode (frames_of segsa))) with (numbered mode num (objects mode (frames_of segsa))) in JAB.
    change (filter _ (objects mode (frames_of segsb))) with (numbered mode num (objects mode (frames_of segsb))) in JAB.
    destruct (numbered mode num (objects mode (frames_of segsa))) as [|x l]; destruct (numbered mode num (objects mode (frames_of segsb))) as [|y m]; cbn [app] in JAB.
    - rewrite JA, JB, JAB. reflexivity.
    - destruct JB as (tb & EB & DDB). destruct JAB as (t & EAB & DDAB). rewrite JA, EB, EAB. cbn [joined_json].
      eexists _, _. split; [exists tb|exists t]; (split; [reflexivity|]); [rewrite DDB|rewrite DDAB]; reflexivity.
    - rewrite app_nil_r in JAB. destruct JA as (ta & EA & DDA). destruct JAB as (t & EAB & DDAB). rewrite JB, EA, EAB. cbn [joined_json].
      eexists _, _. split; [exists ta|exists t]; (split; [reflexivity|]); [rewrite DDA|rewrite DDAB]; reflexivity.
    - destruct JA as (ta & EA & DDA). destruct JB as (tb & EB & DDB). destruct JAB as (t & EAB & DDAB). rewrite EA, EB, EAB. cbn [joined_json].
      assert (X : class_of x = class_of y).
      { pose proof (CA x (or_introl eq_refl)) as X1. pose proof (CB y (or_introl eq_refl)) as X2. congruence. }
      exists (JObj [(ustr "source_type", JStr (ustr (class_of x)))]), (map (json_of (box_json ctl)) (x :: l)), (map (json_of (box_json ctl)) (y :: m)).
      split; [exists ta; split; [reflexivity|rewrite DDA; reflexivity]|]. split; [exists tb; split; [reflexivity|rewrite DDB, X; reflexivity]|].
      exists t. split; [reflexivity|]. rewrite DDAB. unfold document. rewrite <- map_app. reflexivity. }
  split; [auto|]. split; [exact OJ|]. split.
  - intros num sub name PL. destruct (place_spec _ _ _ PL) as (e & E & <- & <-). exact (JJ num e E).
  - intros path N. destruct (PAB path N) as [(num & e & E & ->)|(g & p & sgn & t & K & ->)].
    + specialize (JJ num e E). destruct (sget (output_files (r_world sa)) (json_path e)); [left; discriminate|].
      destruct (sget (output_files (r_world sb)) (json_path e)); [right; discriminate|]. contradiction.
    + specialize (OJ g p sgn t K). destruct (sget (output_files (r_world sa)) (obs_path g p sgn t)); [left; discriminate|]. right. cbn [joined_obs] in OJ. congruence.
Qed.
Print Assumptions C72_parts.

(** A file with two messages, the second of which arrives with one wrong bit; a file cut between
    its messages. *)
Definition wrong_1005 : list Z := firstn 7 sample_1005 ++ [134] ++ skipn 8 sample_1005.
Definition run_files_of (content : list Z) : list (string * nat) :=
  map (fun x => (fst x, length (snd x))) (output_files (r_world (fst (decode_rtcm_file (fun l => l) no_faults (regular_file content) (started (sample_conv "JARGO")))))).
Example C71_nonvacuous :
  valid_frame sample_1005 /\ damaged sample_1005 wrong_1005 /\ ~ In 0xD3 (tl wrong_1005) /\ scans sample_1077 [Frame sample_1077] [] /\
  run_files_of (sample_1077 ++ wrong_1005 ++ sample_1077) = run_files_of (sample_1077 ++ sample_1077) /\
  length (run_files_of (sample_1077 ++ sample_1005 ++ sample_1077)) = S (length (run_files_of (sample_1077 ++ sample_1077))).
Proof.
  split; [exact sample_1005_valid|]. split.
  { split; [apply bytes_okb_ok; vm_compute; reflexivity|]. split; [reflexivity|]. split; [reflexivity|]. left. vm_compute. reflexivity. }
  split.
  { intros I. assert (X : existsb (Z.eqb 0xD3) (tl wrong_1005) = false) by (vm_compute; reflexivity).
    assert (Y : existsb (Z.eqb 0xD3) (tl wrong_1005) = true) by (apply existsb_exists; exists 0xD3; split; [exact I|reflexivity]). congruence. }
  split.
  { rewrite <- (app_nil_r sample_1077) at 1. constructor; [|constructor]. apply valid_frame_check. vm_compute. reflexivity. }
  split; vm_compute; reflexivity.
Qed.
Definition run_file (content : list Z) (path : string) : option (list Z) :=
  sget (output_files (r_world (fst (decode_rtcm_file (fun l => l) no_faults (regular_file content) (started (sample_conv "JARGO")))))) path.
Example C72_nonvacuous :
  scans (sample_1005 ++ sample_1077) [Frame sample_1005; Frame sample_1077] [] /\ known GPS "1C" /\ json_place 1005 "BASE" "RefPoint-1005.json" /\
  let path := obs_path GPS CodeRange "1C" MSM7 in
  map (fun x => option_map (@length Z) (run_file x path))
    [sample_1005; sample_1005 ++ sample_1077; sample_1077 ++ sample_1077; (sample_1005 ++ sample_1077) ++ sample_1077 ++ sample_1077] = [None; Some (523 + 523 + 523); Some (523 + 523 + 523 + 523); Some (523 + 523 + 523 + 523 + 523)]%nat /\
  map (fun x => option_map (@length Z) (run_file x "BASE/RefPoint-1005.json"))
    [sample_1005; sample_1077; (sample_1005 ++ sample_1077) ++ sample_1005] = [Some 309; None; Some 589]%nat.
Proof.
  split.
  { constructor; [exact sample_1005_valid|]. rewrite <- (app_nil_r sample_1077) at 1. constructor; [|constructor]. apply valid_frame_check. vm_compute. reflexivity. }
  split; [vm_compute; tauto|]. split; [apply (place_base 1005 "RefPoint"); cbn; tauto|]. split; vm_compute; reflexivity.
Qed.
