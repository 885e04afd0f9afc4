(** * PropertiesKinds: C78 - messages of one kind do not affect the products of another. *)
From Coq Require Import Permutation.
From Verif Require Import PyBase PyDict PyFloat PyVal BitsSpec BitsModel MessageSpec FramerModel FramerSpec FramerProofs FramerTheorems PropertiesStream MsmModel MsmSpec MsmTheorems
  MsmScaleSpec MsmScaleTheorems MsmConvert MsmConverse TestData DecoderModel DecoderSpec DecoderProofs PropertiesDecoder
  JsonModel JsonSpec JsonFileSpec JsonFiles JsonDecoded PropertiesJson MargoModel MargoSpec MargoProofs MargoFiles PropertiesMargo
  PrinterModel PrinterSpec PrinterProofs PropertiesPrinter MainModel MainSpec MainProofs NamesSpec NamesProofs PropertiesMain PropertiesFiles PiecesSpec
  PropertiesPieces.
From Verif Require GrabberSpec.
Local Open Scope string_scope.
Local Open Scope list_scope.
Local Open Scope Z_scope.
Notation with_number := GrabberSpec.with_number.

Definition has_numberb (n : Z) (f : list Z) : bool := match GrabberSpec.number_of f with Some k => k =? n | None => false end.
Lemma has_numberb_spec n f : has_numberb n f = true <-> has_number f n.
Proof.
  unfold has_numberb, GrabberSpec.number_of, has_number. destruct (Nat.leb_spec 36 (length (bits_of f))) as [L|L].
  - rewrite Z.eqb_eq. split; [intros E; split; [exact L|congruence]|intros (_ & E); congruence].
  - split; [discriminate|]. intros (X & _). lia.
Qed.

(** What one frame contributes to something that takes a kind only. *)
Lemma flat_map_filter {A B} (f : A -> list B) (k : A -> bool) l : (forall x, In x l -> k x = false -> f x = []) -> flat_map f l = flat_map f (filter k l).
Proof.
  induction l as [|x l IH]; intros H; [reflexivity|]. cbn [flat_map filter]. rewrite (IH (fun y I => H y (or_intror I))).
  destruct (k x) eqn:E; [reflexivity|]. now rewrite (H x (or_introl eq_refl) E).
Qed.
Lemma filter_flat_map {A B} (p : B -> bool) (f : A -> list B) l : filter p (flat_map f l) = flat_map (fun x => filter p (f x)) l.
Proof. induction l as [|x l IH]; [reflexivity|]. cbn [flat_map]. now rewrite filter_app, IH. Qed.
Lemma flat_map_flat_map {A B C} (g : B -> list C) (f : A -> list B) l : flat_map g (flat_map f l) = flat_map (fun x => flat_map g (f x)) l.
Proof. induction l as [|x l IH]; [reflexivity|]. cbn [flat_map]. now rewrite flat_map_app, IH. Qed.

(** ** JSON files *)
Definition json_file (ctl : json_controls) (objs : list rtcm_obj) : option (list Z) :=
  match objs with [] => None | x :: _ => Some ((hdr_text (class_of x) ++ body ctl objs) ++ [13; 93]) end.

Lemma json_texts mode env ctl frames st rs num s : Forall valid_frame frames -> (forall n p, env n p = true) ->
  print_session ctl json_init (delivered_to JsonFiles mode env 0 (objects mode frames)) = (st, rs) -> zget JSON_SPEC num = Some s ->
  sget (jp_files (json_close st)) (json_path s) = json_file ctl (numbered mode num (objects mode frames)).
Proof.
  intros V EN P S. pose proof (delivered_ok JsonFiles ctl mode env frames 0 V) as D.
  pose proof (all_printed mode env ctl frames num V EN) as AP. rewrite P in AP. destruct AP as (_ & AP).
  pose proof (session_state ctl json_init _ D json_init (fun _ => []) (nothing_open ctl json_init eq_refl)) as A.
  rewrite P in A. destruct A as (Ok & A). specialize (A num s S). cbn [app] in A. rewrite AP in A.
  rewrite close_files, (open_path st num s) by assumption. destruct (numbered mode num (objects mode frames)) as [|x l]; cbn [JsonFiles.recorded fstate json_file] in *.
  - destruct A as (-> & ->). reflexivity.
  - destruct A as (-> & ->). reflexivity.
Qed.

Lemma numbered_frames mode num frames : Forall valid_frame frames ->
  numbered mode num (objects mode frames) = numbered mode num (objects mode (with_number num frames)).
Proof.
  intros V. unfold numbered, objects. rewrite !filter_flat_map. apply flat_map_filter. intros f I N. rewrite Forall_forall in V. specialize (V f I).
  destruct (answer _ f) as [[o|]|] eqn:A; [|reflexivity..]. cbn [filter].
  destruct (valid_transport f V) as (payload & crc & T).
  destruct (C33_decoded_ok (sample_controls false) (is_bare mode) _ _ _ _ _ (mode_standard mode) T A) as (_ & n & HN & NO). rewrite NO.
  destruct (Z.eqb_spec n num) as [->|NE]; [|now rewrite andb_false_r].
  apply has_numberb_spec in HN. unfold has_numberb in HN. congruence.
Qed.

(** ** Observation files *)
Lemma scaled_number mode f o : valid_frame f -> answer (map Register (decoders_of mode)) f = Ok (Some o) ->
  class_of o = "ObservablesMSM" -> exists g t r, o = OMsm (MsmScaled r) /\ printable g t r /\ has_number f (msm_number g t).
Proof.
  intros V A C. destruct (answer_scaled mode f o V A C) as (g0 & t0 & r & -> & PR0). destruct (valid_transport f V) as (payload & crc & TF).
  pose proof (valid_frame_bytes f V) as B.
  destruct (C33_decoded_ok (sample_controls false) (is_bare mode) _ _ _ _ _ (mode_standard mode) TF A) as (_ & nn & HNN & NO). cbn [number_of] in NO.
  destruct (C12_result _ _ _ B A) as (io & n & cls & g & I & HN & Cl & SD & R & IS).
  apply force_registered in I. apply (mode_standard mode) in I. rename g into dec.
  assert (X : wrap_msm (decode_msm17 (is_bare mode) f) = Ok (Some (OMsm (MsmScaled r)))).
  { destruct I as [<-|[<-|[<-|[<-|[]]]]]; cbn [sd_decode sub_msm4567 sub_msm123 sub_eph sub_base] in SD;
      apply (f_equal (fun x => match x with Some g => g f | None => Err EKey end)) in SD; rewrite R in SD.
    - exact SD.
    - exact SD.
    - unfold wrap_py in SD. destruct (EphModel.subdecoder_eph _ f) as [[p|]|]; cbn in SD; discriminate.
    - unfold wrap_py in SD. destruct (BaseModel.subdecoder_base _ f) as [[p|]|]; cbn in SD; discriminate. }
  unfold wrap_msm in X. destruct (decode_msm17 (is_bare mode) f) as [[r0|]|] eqn:DM; cbn in X; try discriminate.
  assert (r0 = MsmScaled r) as -> by congruence.
  destruct (is_bare mode).
  { unfold decode_msm17 in DM. destruct (bare_decode f) as [b|e]; [discriminate|destruct (is_exception e); discriminate]. }
  pose proof DM as DM'. unfold decode_msm17 in DM'. destruct (bare_decode f) as [b|e] eqn:BD; [|destruct (is_exception e); discriminate].
  pose proof (proj1 (bare_decode_iff _ _ _ _ TF) BD) as (m & OK & NE & P & Ca & ->).
  rewrite convert_ok in DM' by assumption. destruct (codes_of _ _) as [codes|] eqn:EC; [|discriminate].
  exists (m_gnss m), (m_type m), r. split; [reflexivity|]. split; [exact (C31_decoded_printable f m codes r OK NE Ca P EC DM)|].
  rewrite (decode_scaled_ok f m OK NE Ca P), EC in DM. assert (Y : r = scaled_of m codes) by congruence.
  assert (nn = msm_number (m_gnss m) (m_type m)) as <-; [|exact HNN]. rewrite Y in NO. cbn [scaled_of ob_atr attributes_of a_msg_number] in NO. congruence.
Qed.

Section Kind.
Variable ctl : margo_controls.
Hypothesis C : controls_ok ctl.
Variables (g : gnss) (p : param) (sgn : string) (t : msm_type) (h1 h2 : list Z).
Hypothesis K : known g sgn.
Hypothesis HH : make_header ctl (obs_file g p sgn t) = Ok (h1, h2).

(** The row that an object has in this file. *)
Definition row_of (o : rtcm_obj) : list (list Z) :=
  match o with
  | OMsm (MsmScaled x) =>
      if String.eqb (a_gnss (ob_atr x)) (gnss_letter g) && String.eqb (a_subset (ob_atr x)) (type_name t) then
        match sget (buffer_of ctl g t x) (obs_file g p sgn t) with Some row => [row_text p row] | None => [] end
      else []
  | _ => []
  end.
Lemma letter_inj a b : gnss_letter a = gnss_letter b -> a = b.
Proof. destruct a, b; try reflexivity; discriminate. Qed.
Lemma type_inj a b : type_name a = type_name b -> a = b.
Proof. destruct a, b; try reflexivity; discriminate. Qed.

Lemma print_row x g0 t0 ok st : printable g0 t0 x -> (forall n, ok n = true) -> inv st ->
  exists st', margo_print ctl ok st (OMsm (MsmScaled x)) = (st', Ok tt) /\ inv st' /\
    sget (mg_files st') (obs_path g p sgn t) = extend (h1 ++ h2) (row_of (OMsm (MsmScaled x))) (sget (mg_files st) (obs_path g p sgn t)).
Proof.
  intros OK A I. destruct (buffer_names ctl g0 t0 x OK) as (ND & NM).
  cbn [margo_print]. unfold print_observables. rewrite (to_print_buffer_ok ctl g0 t0 x C OK).
  destruct (append_rows_ok ctl ok g0 t0 C (buffer_of ctl g0 t0 x) st I ND NM) as (st' & E & I' & P1 & P2).
  exists st'. split; [exact E|]. split; [exact I'|]. destruct OK as (LG & LT & _). cbn [row_of]. rewrite LG, LT.
  destruct (gnss_eq_dec g0 g) as [->|NG].
  2:{ destruct (String.eqb_spec (gnss_letter g0) (gnss_letter g)) as [X|_]; [destruct (NG (letter_inj _ _ X))|]. cbn [andb]. apply P1; [exact K|left; congruence]. }
  destruct (type_eq_dec t0 t) as [->|NT].
  2:{ destruct (String.eqb_spec (type_name t0) (type_name t)) as [X|_]; [destruct (NT (type_inj _ _ X))|]. rewrite andb_false_r. apply P1; [exact K|right; congruence]. }
  rewrite !String.eqb_refl. cbn [andb]. rewrite (P2 p sgn h1 h2 K HH), A. destruct (sget (buffer_of ctl g t x) (obs_file g p sgn t)) as [row|]; [|reflexivity].
  unfold upd, extend. cbn [concat]. rewrite app_nil_r. destruct (sget (mg_files st) (obs_path g p sgn t)); reflexivity.
Qed.
Lemma print_rows : forall objs hist st, history_of objs hist -> inv st ->
  exists st', print_all ctl st hist = (st', Ok tt) /\ inv st' /\
    sget (mg_files st') (obs_path g p sgn t) = extend (h1 ++ h2) (flat_map row_of objs) (sget (mg_files st) (obs_path g p sgn t)).
Proof.
  induction objs as [|o objs IH]; intros hist st (M & F) I.
  - apply map_eq_nil in M. subst hist. exists st. auto.
  - destruct hist as [|e hist]; [discriminate|]. cbn [map] in M. inversion F as [|? ? (OKe & CR) F']; subst. injection M as X M.
    destruct (print_row _ _ _ (pe_can_create e) st OKe CR I) as (st1 & E1 & I1 & S1). cbn [print_all]. rewrite E1.
    destruct (IH hist st1 (conj M F') I1) as (st' & E' & I' & S'). exists st'. split; [exact E'|]. split; [exact I'|].
    cbn [flat_map]. now rewrite S', S1, extend_app, <- X.
Qed.
Lemma rows_frames mode frames : Forall valid_frame frames ->
  flat_map row_of (observations mode (objects mode frames)) =
  flat_map row_of (observations mode (objects mode (with_number (msm_number g t) frames))).
Proof.
  intros V. unfold observations, objects. rewrite !filter_flat_map, !flat_map_flat_map. apply flat_map_filter. intros f I N. rewrite Forall_forall in V. specialize (V f I).
  destruct (answer _ f) as [[o|]|] eqn:A; [|reflexivity..]. cbn [filter].
  destruct (same_family _ _) eqn:FA; [|reflexivity]. cbn [flat_map]. rewrite app_nil_r.
  assert (CO : class_of o = "ObservablesMSM").
  { unfold family_of in FA. destruct (String.eqb_spec (class_of o) "ObservablesMSM"); [assumption|]. cbn [andb] in FA. discriminate FA. }
  destruct (scaled_number mode f o V A CO) as (g0 & t0 & r & -> & (LG & LT & _) & HN). cbn [row_of]. rewrite LG, LT.
  destruct (String.eqb_spec (gnss_letter g0) (gnss_letter g)) as [X|_]; [|reflexivity].
  destruct (String.eqb_spec (type_name t0) (type_name t)) as [Y|_]; [|reflexivity].
  apply letter_inj in X. apply type_inj in Y. subst g0 t0. apply has_numberb_spec in HN. unfold has_numberb in HN. congruence.
Qed.
End Kind.

(** ** The files of a conversion, kind by kind *)
Lemma files_by_kind mode env ctl c ord content segs rest :
  factory mode true env ctl = Ok (Some c) -> walk ord -> controls_ok (box_margo ctl) -> (forall n p, env n p = true) ->
  bytes_ok content -> scans content segs rest ->
  let file := sget (output_files (r_world (fst (decode_rtcm_file ord no_faults (regular_file content) (started c))))) in
  let of_kind num := objects mode (with_number num (frames_of segs)) in
  (forall num s, zget JSON_SPEC num = Some s -> file (json_path s) = json_file (box_json ctl) (numbered mode num (of_kind num))) /\
  (forall g p sgn t h1 h2, known g sgn -> make_header (box_margo ctl) (obs_file g p sgn t) = Ok (h1, h2) ->
     file (obs_path g p sgn t) = extend (h1 ++ h2) (flat_map (row_of (box_margo ctl) g p sgn t) (observations mode (of_kind (msm_number g t)))) None) /\
  (forall path, file path <> None ->
     (exists num s, zget JSON_SPEC num = Some s /\ path = json_path s) \/ (exists g p sgn t, known g sgn /\ path = obs_path g p sgn t)).
Proof.
  intros F O C EN B S file of_kind. unfold file. clear file.
  destruct (decode_rtcm_file ord no_faults (regular_file content) (started c)) as [s r] eqn:D. cbn [fst].
  pose proof (scans_frames_valid _ _ _ S) as V.
  destruct (run_files mode env ctl c ord content segs rest s r F O C B S EN D) as (_ & OF & JF & PF).
  destruct (margo_run mode env ctl c ord content segs rest s r F O C B S EN D) as (hist & m & HI & PA & WM).
  split; [|split; [|exact PF]].
  - intros num e E.
    destruct (conversion mode env ctl c ord _ _ content segs rest F O C B (regular_reads content) (regular_size content) S) as (s' & D' & (st & rs & J & WJ & _) & _).
    unfold regular_file in D. assert (s' = s) as -> by congruence.
    unfold of_kind. rewrite <- numbered_frames by exact V. rewrite <- (json_texts mode env (box_json ctl) (frames_of segs) st rs num e V EN J E), <- WJ.
    unfold output_files. rewrite sget_app. destruct (sget (mg_files (w_margo (r_world s))) (json_path e)) eqn:X; [|reflexivity].
    exfalso. destruct (C38_obs_files mode env ctl c ord _ _ content segs rest F O C B (regular_reads content) (regular_size content) S EN) as (s1 & hist' & D1 & _ & _ & OO).
    assert (s1 = s) as -> by congruence. destruct (OO (json_path e)) as (g & p & sgn & t & _ & Y); [congruence|]. destruct (C36_jargo_files_distinct num e g p sgn t E Y).
  - intros g p sgn t h1 h2 K HH. rewrite OF, WM. unfold of_kind. rewrite <- rows_frames by exact V.
    destruct (print_rows (box_margo ctl) C g p sgn t h1 h2 K HH _ hist margo_init HI inv_init) as (st & PA' & _ & E).
    assert (st = m) as -> by congruence. rewrite E. reflexivity.
Qed.

(** Two recordings in which the messages of one number are the same, in the same order: the
    products of this number are the same, byte for byte, whatever other messages there are
    before, between and behind them, and whether or not those can be decoded. *)
Theorem C78_kinds : forall mode env ctl c ord a b segs segs' rest rest',
  factory mode true env ctl = Ok (Some c) -> walk ord -> controls_ok (box_margo ctl) -> (forall n p, env n p = true) ->
  bytes_ok a -> bytes_ok b -> scans a segs rest -> scans b segs' rest' ->
  let file x path := sget (output_files (r_world (fst (decode_rtcm_file ord no_faults (regular_file x) (started c))))) path in
  let same num := with_number num (frames_of segs) = with_number num (frames_of segs') in
  (forall num sub name, json_place num sub name -> same num ->
     file a (sub ++ "/" ++ name)%string = file b (sub ++ "/" ++ name)%string) /\
  (forall g p sgn t, known g sgn -> same (msm_number g t) -> file a (obs_path g p sgn t) = file b (obs_path g p sgn t)) /\
  ((forall num, same num) -> forall path, file a path = file b path).
Proof.
  intros mode env ctl c ord a b segs segs' rest rest' F O C EN BA BB SA SB file same.
  destruct (files_by_kind mode env ctl c ord a segs rest F O C EN BA SA) as (JA & OA & PA).
  destruct (files_by_kind mode env ctl c ord b segs' rest' F O C EN BB SB) as (JB & OB & PB).
  assert (JJ : forall num s, zget JSON_SPEC num = Some s -> same num -> file a (json_path s) = file b (json_path s)).
  { intros num s E S. unfold file. rewrite (JA num s E), (JB num s E), S. reflexivity. }
  assert (OO : forall g p sgn t, known g sgn -> same (msm_number g t) -> file a (obs_path g p sgn t) = file b (obs_path g p sgn t)).
  { intros g p sgn t K S. destruct (header_ok (box_margo ctl) g p sgn t C K) as (h1 & h2 & HH & _). unfold file.
    rewrite (OA g p sgn t h1 h2 K HH), (OB g p sgn t h1 h2 K HH), S. reflexivity. }
  split; [|split; [exact OO|]].
  - intros num sub name PL. destruct (place_spec _ _ _ PL) as (e & E & <- & <-). exact (JJ num e E).
  - intros S path.
    assert (Q : file a path <> None \/ file b path <> None -> file a path = file b path).
    { intros N. assert (N' : (exists num s, zget JSON_SPEC num = Some s /\ path = json_path s) \/ (exists g p sgn t, known g sgn /\ path = obs_path g p sgn t)).
      { destruct N as [N|N]; [exact (PA path N)|exact (PB path N)]. }
      destruct N' as [(num & s & E & ->)|(g & p & sgn & t & K & ->)]; [exact (JJ num s E (S num))|exact (OO g p sgn t K (S _))]. }
    destruct (file a path) eqn:EA; [apply Q; left; discriminate|]. destruct (file b path) eqn:EB; [apply Q; right; discriminate|reflexivity].
Qed.
Print Assumptions C78_kinds.

(** ** C72 once more: JSON files of the parts and of the whole, as texts *)

(** The line with the type, [h]; the messages of the parts; the end of the document, "\r]". *)
Definition joined_text (a b ab : option (list Z)) : Prop :=
  match a, b with
  | None, _ => ab = b
  | _, None => ab = a
  | Some x, Some y => exists h ra rb ty, x = h ++ ra ++ [13; 93] /\ y = h ++ rb ++ [13; 93] /\ ab = Some (h ++ ra ++ rb ++ [13; 93]) /\
      read_json (h ++ [13; 93]) = Some (JArr [JObj [(ustr "source_type", JStr ty)]])
  end.
Theorem C72_json_text : forall mode env ctl c ord a b segs,
  factory mode true env ctl = Ok (Some c) -> walk ord -> controls_ok (box_margo ctl) -> (forall n p, env n p = true) ->
  bytes_ok a -> bytes_ok b -> scans a segs [] ->
  let file x path := sget (output_files (r_world (fst (decode_rtcm_file ord no_faults (regular_file x) (started c))))) path in
  forall num sub name, json_place num sub name ->
     let path := (sub ++ "/" ++ name)%string in joined_text (file a path) (file b path) (file (a ++ b) path).
Proof.
  intros mode env ctl c ord a b segsa F O C EN BA BB SA file num sub name PL path.
  destruct (scans_exists b BB) as (segsb & rest & SB).
  assert (SAB : scans (a ++ b) (segsa ++ segsb) rest) by (eapply scans_app; [exact SA|exact SB]).
  assert (BAB : bytes_ok (a ++ b)) by (apply bytes_ok_app; now split).
  destruct (place_spec _ _ _ PL) as (e & E & <- & <-). change path with (json_path e). clear path.
  destruct (files_by_kind mode env ctl c ord a _ _ F O C EN BA SA) as (JA & _). specialize (JA num e E). 
  destruct (files_by_kind mode env ctl c ord b _ _ F O C EN BB SB) as (JB & _). specialize (JB num e E). 
  destruct (files_by_kind mode env ctl c ord (a ++ b) _ _ F O C EN BAB SAB) as (JAB & _). specialize (JAB num e E). 
  pose proof (scans_frames_valid _ _ _ SA) as VA. pose proof (scans_frames_valid _ _ _ SB) as VB. pose proof (scans_frames_valid _ _ _ SAB) as VAB.
  rewrite <- numbered_frames in JA, JB, JAB by assumption.
  rewrite frames_of_app, objects_app in JAB. unfold numbered in JAB. rewrite filter_app in JAB.
  pose proof (fun o => numbered_class mode num (frames_of segsa) o VA) as CA. pose proof (fun o => numbered_class mode num (frames_of segsb) o VB) as CB.
  change (filter _ (objects mode (frames_of segsa))) with (numbered mode num (objects mode (frames_of segsa))) in JAB.
  change (filter _ (objects mode (frames_of segsb))) with (numbered mode num (objects mode (frames_of segsb))) in JAB.
  unfold file. rewrite JA, JB, JAB. destruct (numbered mode num (objects mode (frames_of segsa))) as [|x l]; [reflexivity|].
  destruct (numbered mode num (objects mode (frames_of segsb))) as [|y m]; [now rewrite app_nil_r|].
  assert (X : class_of y = class_of x).
  { pose proof (CA x (or_introl eq_refl)) as X1. pose proof (CB y (or_introl eq_refl)) as X2. congruence. }
  unfold json_file, joined_text. cbn [app]. rewrite X. exists (hdr_text (class_of x)), (body (box_json ctl) (x :: l)), (body (box_json ctl) (y :: m)), (ustr (class_of x)).
  split; [now rewrite app_assoc|]. split; [now rewrite app_assoc|]. split.
  - change (x :: l ++ y :: m) with ((x :: l) ++ (y :: m)). unfold body. rewrite !map_app, concat_app, <- !app_assoc. reflexivity.
  - pose proof (document_reads _ _ [] [] (class_text (class_of x)) (Forall2_nil _)) as D. cbn [map concat] in D. exact D.
Qed.
Print Assumptions C72_json_text.

(** The messages whose number is among the chosen ones. *)
Definition chosen (keep : Z -> bool) (frames : list (list Z)) : list (list Z) :=
  filter (fun f => match GrabberSpec.number_of f with Some n => keep n | None => false end) frames.

Lemma chosen_number keep num frames : with_number num (chosen keep frames) = if keep num then with_number num frames else [].
Proof.
  unfold chosen, with_number. induction frames as [|f l IH]; [now destruct (keep num)|]. cbn [filter].
  destruct (GrabberSpec.number_of f) as [n|] eqn:E; [|exact IH].
  destruct (Z.eqb_spec n num) as [->|NE].
  - destruct (keep num) eqn:Kp; [cbn [filter]; rewrite E, Z.eqb_refl, IH; reflexivity|exact IH].
  - destruct (keep n); [cbn [filter]; rewrite E; destruct (Z.eqb_spec n num); [contradiction|exact IH]|exact IH].
Qed.
Lemma scans_frames : forall l, Forall valid_frame l -> scans (concat l) (map Frame l) [] /\ frames_of (map Frame l) = l.
Proof.
  induction 1 as [|f l V A (S & E)]; [split; [constructor|reflexivity]|]. cbn [concat map]. split; [now constructor|].
  change (f :: frames_of (map Frame l) = f :: l). now rewrite E.
Qed.

(** A recording reduced to the messages with chosen numbers: the products are those products of
    the whole recording that belong to these numbers, byte for byte, and no others. *)
Theorem C78_selection : forall mode env ctl c ord content segs rest keep,
  factory mode true env ctl = Ok (Some c) -> walk ord -> controls_ok (box_margo ctl) -> (forall n p, env n p = true) ->
  bytes_ok content -> scans content segs rest ->
  let file x path := sget (output_files (r_world (fst (decode_rtcm_file ord no_faults (regular_file x) (started c))))) path in
  let reduced := concat (chosen keep (frames_of segs)) in
  (forall num sub name, json_place num sub name ->
     file reduced (sub ++ "/" ++ name)%string = if keep num then file content (sub ++ "/" ++ name)%string else None) /\
  (forall g p sgn t, known g sgn ->
     file reduced (obs_path g p sgn t) = if keep (msm_number g t) then file content (obs_path g p sgn t) else None) /\
  (forall path, file reduced path <> None -> file content path = file reduced path).
Proof.
  intros mode env ctl c ord content segs rest keep F O C EN B S file reduced.
  pose proof (scans_frames_valid _ _ _ S) as V.
  assert (V' : Forall valid_frame (chosen keep (frames_of segs))).
  { apply Forall_forall. intros f I. apply filter_In in I. rewrite Forall_forall in V. apply V, I. }
  destruct (scans_frames _ V') as (S' & E').
  assert (B' : bytes_ok reduced).
  { unfold reduced. clear - V'. induction V' as [|f l VF _ IH]; [constructor|]. cbn [concat]. apply bytes_ok_app. split; [now apply valid_frame_bytes|exact IH]. }
  destruct (files_by_kind mode env ctl c ord content segs rest F O C EN B S) as (JA & OA & PA).
  destruct (files_by_kind mode env ctl c ord reduced _ _ F O C EN B' S') as (JB & OB & PB). rewrite E' in JB, OB.
  assert (JJ : forall num s, zget JSON_SPEC num = Some s -> file reduced (json_path s) = if keep num then file content (json_path s) else None).
  { intros num s E. unfold file. rewrite (JA num s E), (JB num s E), chosen_number. destruct (keep num); reflexivity. }
  assert (OO : forall g p sgn t, known g sgn -> file reduced (obs_path g p sgn t) = if keep (msm_number g t) then file content (obs_path g p sgn t) else None).
  { intros g p sgn t K. destruct (header_ok (box_margo ctl) g p sgn t C K) as (h1 & h2 & HH & _). unfold file.
    rewrite (OA g p sgn t h1 h2 K HH), (OB g p sgn t h1 h2 K HH), chosen_number. destruct (keep (msm_number g t)); reflexivity. }
  split; [|split; [exact OO|]].
  - intros num sub name PL. destruct (place_spec _ _ _ PL) as (e & E & <- & <-). exact (JJ num e E).
  - intros path N. pose proof (PB path N) as [(num & s & E & ->)|(g & p & sgn & t & K & ->)].
    + specialize (JJ num s E). destruct (keep num); [now rewrite JJ|congruence].
    + specialize (OO g p sgn t K). destruct (keep (msm_number g t)); [now rewrite OO|congruence].
Qed.
Print Assumptions C78_selection.

(** A station message, a GPS and a GLONASS MSM7; the station message alone; another order. *)
Example C78_nonvacuous :
  let segs := [Frame sample_1005; Frame sample_1077; Frame sample_1087] in
  let content := sample_1005 ++ sample_1077 ++ sample_1087 in
  scans content segs [] /\ json_place 1005 "BASE" "RefPoint-1005.json" /\ known GPS "1C" /\
  concat (chosen (Z.eqb 1005) (frames_of segs)) = sample_1005 /\
  map fst (run_files_of sample_1005) = ["BASE/RefPoint-1005.json"] /\
  option_map (@length Z) (run_file content "BASE/RefPoint-1005.json") = Some 309%nat /\
  option_map (@length Z) (run_file (sample_1087 ++ sample_1077) "BASE/RefPoint-1005.json") = None /\
  (forall num, with_number num [sample_1005; sample_1077; sample_1087] = with_number num [sample_1077; sample_1087; sample_1005]).
Proof.
  assert (V : Forall valid_frame [sample_1005; sample_1077; sample_1087]) by (do 3 (constructor; [apply valid_frame_check; vm_compute; reflexivity|]); constructor).
  split; [pose proof (proj1 (scans_frames _ V)) as S; cbn [concat map] in S; rewrite app_nil_r in S; exact S|].
  split; [apply (place_base 1005 "RefPoint"); cbn; tauto|]. split; [vm_compute; tauto|]. split; [vm_compute; reflexivity|].
  split; [vm_compute; reflexivity|]. split; [vm_compute; reflexivity|]. split; [vm_compute; reflexivity|].
  intros num. unfold with_number. cbn [filter].
  assert (N1 : GrabberSpec.number_of sample_1005 = Some 1005) by (vm_compute; reflexivity).
  assert (N2 : GrabberSpec.number_of sample_1077 = Some 1077) by (vm_compute; reflexivity).
  assert (N3 : GrabberSpec.number_of sample_1087 = Some 1087) by (vm_compute; reflexivity).
  rewrite N1, N2, N3. destruct (Z.eqb_spec 1005 num), (Z.eqb_spec 1077 num), (Z.eqb_spec 1087 num); try lia; reflexivity.
Qed.
