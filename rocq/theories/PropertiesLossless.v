(** * PropertiesLossless: C76 - the bare output shows everything that was sent. *)
From Coq Require Import Ascii Lia.
From Verif Require Import PyBase PyDict PyFloat PyVal PyFormat PyJson JsonSpec BitsSpec MessageSpec FramerModel FramerSpec FramerProofs FramerTheorems DecoderModel DecoderSpec DecoderProofs TestData PropertiesStream
  EphSpec EphProofs BaseSpec BitsProofs MsmModel MsmSpec MsmProofs MsmConvert MsmScaleSpec MsmTheorems PropertiesMsm JsonModel JsonFileSpec MargoModel MargoSpec PrinterModel PrinterSpec NamesSpec
  MainModel MainSpec ControlsModel ControlsSpec SessionModel SessionSpec PropertiesPrinter PropertiesMargo PropertiesFiles SourcesModel SourcesSpec IniModel ArgsModel ArgsSpec ProgramModel ProgramSpec PropertiesProgram
  TransmissionSpec TransmissionProofs PropertiesTransmission DocumentsSpec DocumentsProofs PropertiesDocuments LosslessSpec.
Local Open Scope string_scope.
Local Open Scope list_scope.
Local Open Scope Z_scope.

(** ** Lists of bytes in hexadecimal *)
Definition hex_value (t : list Z) : Z := fold_left (fun a c => 16 * a + (if c <? 58 then c - 48 else c - 87)) (skipn 2 t) 0.
Lemma hex_byte_facts b : 0 <= b < 256 -> hex_value (hex_byte b) = b /\ ~ In 32 (hex_byte b) /\ hex_byte b <> [].
Proof.
  intros H. assert (T : forallb (fun b => (hex_value (hex_byte b) =? b) && negb (existsb (Z.eqb 32) (hex_byte b)) && negb (zlen (hex_byte b) =? 0)) (zrange 0 256) = true)
    by (vm_compute; reflexivity).
  rewrite forallb_forall in T. specialize (T b ltac:(apply zrange_In; lia)). apply andb_prop in T as (T & T3). apply andb_prop in T as (T1 & T2).
  split; [now apply Z.eqb_eq|]. split.
  - intros I. apply negb_true_iff in T2. assert (existsb (Z.eqb 32) (hex_byte b) = true) by (apply existsb_exists; exists 32; split; [exact I|reflexivity]). congruence.
  - intros E. rewrite E in T3. discriminate T3.
Qed.
Lemma spaced_cons a l : spaced (a :: l) = a ++ flat_map (fun x => 32 :: x) l.
Proof.
  revert a. induction l as [|b l IH]; intros a; [cbn [spaced flat_map]; now rewrite app_nil_r|].
  change (spaced (a :: b :: l)) with (a ++ ustr " " ++ spaced (b :: l)). rewrite IH. reflexivity.
Qed.
Lemma split_space x y r r' : ~ In 32 x -> ~ In 32 y -> (r = [] \/ exists t, r = 32 :: t) -> (r' = [] \/ exists t, r' = 32 :: t) ->
  x ++ r = y ++ r' -> x = y /\ r = r'.
Proof.
  revert y. induction x as [|a x IH]; intros y X Y R R' E.
  - destruct y as [|b y]; [split; [reflexivity|exact E]|]. exfalso. cbn [app] in E. destruct R as [->|(t & ->)]; [discriminate E|].
    injection E as <- _. apply Y. now left.
  - destruct y as [|b y].
    + exfalso. cbn [app] in E. destruct R' as [->|(t & ->)]; [discriminate E|]. injection E as -> _. apply X. now left.
    + cbn [app] in E. injection E as -> E. destruct (IH y) as (-> & ->); auto; intros I; [apply X|apply Y]; now right.
Qed.
Lemma spaced_inj : forall l l', (forall x, In x (l ++ l') -> ~ In 32 x /\ x <> []) -> spaced l = spaced l' -> l = l'.
Proof.
  assert (F : forall l : list (list Z), flat_map (fun x => 32 :: x) l = [] \/ exists t, flat_map (fun x => 32 :: x) l = 32 :: t).
  { intros [|a l]; [now left|right; eexists; reflexivity]. }
  assert (G : forall l l' : list (list Z), (forall x, In x (l ++ l') -> ~ In 32 x) -> flat_map (fun x => 32 :: x) l = flat_map (fun x => 32 :: x) l' -> l = l').
  { induction l as [|a l IH]; intros [|b l'] H E; [reflexivity|discriminate E|discriminate E|]. cbn [flat_map app] in E. injection E as E.
    destruct (split_space a b _ _ (H a (or_introl eq_refl)) (H b ltac:(apply in_or_app; right; now left)) (F l) (F l') E) as (-> & E').
    f_equal. apply IH; [|exact E']. intros x I. apply H. cbn [app]. right. apply in_app_or in I. apply in_or_app. cbn [In]. tauto. }
  intros [|a l] [|b l'] H E; [reflexivity| | |].
  - exfalso. rewrite spaced_cons in E. destruct (H b (or_introl eq_refl)) as (_ & N). destruct b; [congruence|discriminate E].
  - exfalso. rewrite spaced_cons in E. destruct (H a (or_introl eq_refl)) as (_ & N). destruct a; [congruence|discriminate E].
  - rewrite !spaced_cons in E. destruct (split_space a b _ _ (proj1 (H a (or_introl eq_refl))) (proj1 (H b ltac:(apply in_or_app; right; now left))) (F l) (F l') E) as (-> & E').
    f_equal. apply G; [|exact E']. intros x I. apply H. cbn [app]. right. apply in_app_or in I. apply in_or_app. cbn [In]. tauto.
Qed.
Lemma hex_inj s s' : bytes_ok s -> bytes_ok s' -> hex_listing s = hex_listing s' -> s = s'.
Proof.
  intros B B' E. unfold hex_listing in E. assert (E' : spaced (map hex_byte s) = spaced (map hex_byte s')) by congruence.
  apply spaced_inj in E'.
  - assert (V : forall l, bytes_ok l -> map hex_value (map hex_byte l) = l).
    { induction 1 as [|b l Hb Hl IH]; [reflexivity|]. cbn [map]. rewrite IH. f_equal. apply hex_byte_facts. exact Hb. }
    rewrite <- (V s B), <- (V s' B'), E'. reflexivity.
  - intros x I. apply in_app_or in I. unfold bytes_ok in *. rewrite Forall_forall in B, B'.
    destruct I as [I|I]; apply in_map_iff in I; destruct I as (b & <- & I); [exact (proj2 (hex_byte_facts b (B b I)))|exact (proj2 (hex_byte_facts b (B' b I)))].
Qed.

(** ** Masks *)
Lemma lsb_inj : forall l l', length l = length l' -> lsb_value l = lsb_value l' -> l = l'.
Proof.
  induction l as [|a l IH]; intros [|b l'] L E; try discriminate L; [reflexivity|]. cbn [lsb_value] in E. injection L as L.
  assert (a = b) as <- by (destruct a, b; cbn [Z.b2z] in E; try reflexivity; exfalso; lia). f_equal. apply IH; [exact L|lia].
Qed.
Lemma mask_inj n l l' : 0 <= n -> increasing_within n l -> increasing_within n l' -> lsb_value (mask_bits n l) = lsb_value (mask_bits n l') -> l = l'.
Proof. intros N I I' E. rewrite <- (mask_members_ok n l N I), <- (mask_members_ok n l' N I'), E. reflexivity. Qed.

Lemma ints_inj l l' : JArr (map JInt l) = JArr (map JInt l') -> l = l'.
Proof.
  intros E. assert (E' : map JInt l = map JInt l') by congruence. clear E. revert l' E'. induction l as [|a l IH]; intros [|b l'] E; try discriminate E; [reflexivity|].
  cbn [map] in E. f_equal; [congruence|apply IH; congruence].
Qed.

Lemma cell_bits_length m : Forall (fun r => length (snd r) = length (m_sigs m)) (m_rows m) ->
  length (cell_bits m) = (length (m_rows m) * length (m_sigs m))%nat.
Proof.
  unfold cell_bits. generalize (m_sigs m). intros s. induction 1 as [|r l H _ IH]; [reflexivity|]. cbn [flat_map length]. rewrite app_length, map_length, IH, H. reflexivity.
Qed.

Lemma msm_inj ctl m m' v : enable_hdr_data ctl = true -> msm_ok m -> msm_ok m' -> m_gnss m = m_gnss m' -> m_type m = m_type m' ->
  shows_msm ctl true m v -> shows_msm ctl true m' v -> msm_bits (unreserved m) = msm_bits (unreserved m').
Proof.
  intros H OK OK' G T (SH & SA & CE) (SH' & SA' & CE').
  unfold shows_headers in SH, SH'. cbv zeta in SH, SH'. destruct SH as ((body & V) & SH & _). destruct SH' as ((body' & V') & SH' & _).
  assert (K : py_int_str (epoch_time m') = py_int_str (epoch_time m)) by congruence. rewrite K in SH', SA', CE'.
  unfold part in SH, SH'. rewrite H in SH, SH'. destruct SH as (h & E & SH). destruct SH' as (h' & E' & SH'). assert (h' = h) as -> by congruence.
  clear E E'. cbn [shows_header] in SH, SH'.
  assert (HF : forall n z z', In (n, z) (header_fields m) -> In (n, z') (header_fields m') -> z = z').
  { intros n z z' I I'. specialize (SH n z I). specialize (SH' n z' I'). congruence. }
  clear SH SH'.
  assert (F : forall k, (k < 11)%nat -> snd (nth k (header_fields m) ("", 0)) = snd (nth k (header_fields m') ("", 0))).
  { intros k L. apply (HF (fst (nth k (header_fields m) ("", 0)))).
    - rewrite <- surjective_pairing. apply nth_In. exact L.
    - replace (fst (nth k (header_fields m) ("", 0))) with (fst (nth k (header_fields m') ("", 0))).
      + rewrite <- surjective_pairing. apply nth_In. exact L.
      + clear - L. do 11 (destruct k as [|k]; [reflexivity|]). lia. }
  pose proof (F 0%nat ltac:(lia)) as F0. pose proof (F 1%nat ltac:(lia)) as F1. pose proof (F 2%nat ltac:(lia)) as F2. pose proof (F 3%nat ltac:(lia)) as F3.
  pose proof (F 4%nat ltac:(lia)) as F4. pose proof (F 5%nat ltac:(lia)) as F5. pose proof (F 6%nat ltac:(lia)) as F6. pose proof (F 7%nat ltac:(lia)) as F7.
  pose proof (F 8%nat ltac:(lia)) as F8. pose proof (F 9%nat ltac:(lia)) as F9. pose proof (F 10%nat ltac:(lia)) as F10. clear F HF.
  unfold header_fields in F0, F1, F2, F3, F4, F5, F6, F7, F8, F9, F10.
  cbn [nth snd] in F0, F1, F2, F3, F4, F5, F6, F7, F8, F9, F10.
  destruct OK as (_ & IS & IG & RL & _). destruct OK' as (_ & IS' & IG' & RL' & _).
  pose proof (mask_inj 64 _ _ ltac:(lia) IS IS' F8) as ES. pose proof (mask_inj 32 _ _ ltac:(lia) IG IG' F9) as EG.
  assert (LR : length (m_rows m) = length (m_rows m')).
  { apply (f_equal (@length Z)) in ES. unfold m_sats in ES. now rewrite !map_length in ES. }
  assert (EC : cell_bits m = cell_bits m') by (apply lsb_inj; [rewrite !cell_bits_length by assumption; now rewrite LR, EG|exact F10]).
  assert (CS : forall get, In get (map snd (sat_names (m_type m))) -> map get (m_sats m) = map get (m_sats m')).
  { intros get I. apply in_map_iff in I. destruct I as ((n & g) & <- & I). cbn [snd]. pose proof (SA n g I) as X. rewrite T in I. pose proof (SA' n g I) as X'.
    apply ints_inj. rewrite !map_map. congruence. }
  assert (CC : forall get, In get (map snd (cell_names (m_type m))) -> map get (m_cells m) = map get (m_cells m')).
  { intros get I. apply in_map_iff in I. destruct I as ((n & g) & <- & I). cbn [snd]. pose proof (CE n g I) as X. rewrite T in I. pose proof (CE' n g I) as X'.
    apply ints_inj. rewrite !map_map. congruence. }
  clear SA SA' CE CE'.
  assert (CB : forall (A : Type) (l l' : list A) w s (get : A -> Z), map get l = map get l' -> column_bits l (w, s, get) = column_bits l' (w, s, get)).
  { intros A l l' w s get E. unfold column_bits. rewrite !flat_map_concat_map. f_equal. rewrite <- (map_map get (enc w) l), <- (map_map get (enc w) l'). now rewrite E. }
  unfold msm_bits, header_bits. change (cell_bits (unreserved m)) with (cell_bits m). change (cell_bits (unreserved m')) with (cell_bits m').
  change (m_sats (unreserved m)) with (m_sats m). change (m_sats (unreserved m')) with (m_sats m').
  change (m_cells (unreserved m)) with (m_cells m). change (m_cells (unreserved m')) with (m_cells m').
  cbn [unreserved m_gnss m_type m_station m_epoch m_multiple m_iods m_reserved m_steering m_ext_clock m_smooth m_smooth_int m_sigs].
  rewrite G, <- T, F0, F1, F2, F3, F4, F5, F6, F7, ES, EG, EC. f_equal. f_equal. f_equal.
  - rewrite !flat_map_concat_map. f_equal.
    apply map_ext_in. intros [[w s] get] I. apply CB, CS. destruct (m_type m); cbn in I |- *; intuition congruence.
  - rewrite !flat_map_concat_map. f_equal. apply map_ext_in. intros [[w s] get] I. apply CB, CC. destruct (m_type m); cbn in I |- *; intuition congruence.
Qed.

(** ** Fields *)
Lemma fields_inj l p p' (keep : string -> Prop) v :
  (forall n z, In (n, z) (fields_of l p) -> keep n -> jget v (ustr n) = Some (JInt z)) ->
  (forall n z, In (n, z) (fields_of l p') -> keep n -> jget v (ustr n) = Some (JInt z)) ->
  forall n z, keep n -> In (n, z) (fields_of l p) -> In (n, z) (fields_of l p').
Proof.
  intros S S' n z K I. assert (N : In n (map fst (fields_of l p'))).
  { rewrite fields_names, <- (fields_names l p). exact (in_map fst _ _ I). }
  apply in_map_iff in N. destruct N as ((n' & z') & N & I'). cbn [fst] in N. subst n'.
  pose proof (S n z I K). pose proof (S' n z' I' K). assert (z' = z) as -> by congruence. exact I'.
Qed.

Lemma announced_id l n a : BaseSpec.announced l n = Some a -> an_id a = n.
Proof. unfold BaseSpec.announced. intros H. apply find_some in H. now apply Z.eqb_eq. Qed.

(** Two messages of one number that are shown by one element are the same. *)
Lemma shown_same ctl f f' x y v : enable_hdr_data ctl = true -> brings true f x -> brings true f' y -> message_number x = message_number y ->
  shows_element ctl true x v -> shows_element ctl true y v -> same_message x y.
Proof.
  intros H B B' N S S'.
  destruct x as [t p|t p|m|id mjd sec leap l|id c r b|m]; destruct y as [t' p'|t' p'|m'|id' mjd' sec' leap' l'|id' c' r' b'|m']; cbn [message_number] in N;
    try (exfalso; clear - N; unfold msm_number in N;
         repeat match goal with t : eph_msg |- _ => destruct t | t : rp_msg |- _ => destruct t | t : text_msg |- _ => destruct t end;
         try (match goal with m : msm |- _ => destruct (m_gnss m), (m_type m) end); discriminate N).
  - cbn [same_message shows_element] in *. assert (t' = t) as -> by (destruct t, t'; try reflexivity; discriminate N). split; [reflexivity|].
    assert (A : forall p n z, (forall n z, In (n, z) (fields_of (layout t) (bits_of p)) -> kept t n -> exists q, jget v (ustr n) = Some (jv_of q) /\ q = VInt z) ->
      In (n, z) (fields_of (layout t) (bits_of p)) -> kept t n -> jget v (ustr n) = Some (JInt z)).
    { intros q n z Q I K. destruct (Q n z I K) as (w & E & ->). exact E. }
    intros n z K. split; intros I; eapply (fields_inj (layout t) _ _ (kept t) v); try eassumption; intros n0 z0; apply A; assumption.
  - cbn [same_message shows_element] in *. assert (t' = t) as -> by (destruct t, t'; try reflexivity; discriminate N). split; [reflexivity|].
    assert (A : forall p n z, (forall n z, In (n, z) (fields_of (rp_layout t) (bits_of p)) -> exists q, jget v (ustr n) = Some (jv_of q) /\ q = VInt z) ->
      In (n, z) (fields_of (rp_layout t) (bits_of p)) -> True -> jget v (ustr n) = Some (JInt z)).
    { intros q n z Q I _. destruct (Q n z I) as (w & E & ->). exact E. }
    intros n z. split; intros I; eapply (fields_inj (rp_layout t) _ _ (fun _ => True) v); try eassumption; try exact Logic.I; intros n0 z0; apply A; assumption.
  - cbn [same_message shows_element brings] in *. destruct B as (OK & _). destruct B' as (OK' & _).
    destruct S as (sh & H1 & H2). destruct S' as (sh' & H1' & H2').
    assert (T : forall n s s', In s (text_strings m) -> In s' (text_strings m') -> bytes_ok s -> bytes_ok s' ->
      In (n, sh s) (text_attrs sh m) -> In (n, sh' s') (text_attrs sh' m') -> s = s').
    { intros n s s' I I' O O' A A'. apply hex_inj; [exact O|exact O'|]. pose proof (H2 _ _ A) as X. pose proof (H2' _ _ A') as X'.
      rewrite (H1 s I) in X. rewrite (H1' s' I') in X'. unfold hex_listing in *. cbn [jv_of] in X, X'. congruence. }
    assert (J : forall n z z', In (n, VInt z) (text_attrs sh m) -> In (n, VInt z') (text_attrs sh' m') -> z = z').
    { intros n z z' A A'. pose proof (H2 _ _ A) as X. pose proof (H2' _ _ A') as X'. cbn [jv_of] in X, X'. congruence. }
    destruct m as [i d st|i d st se|i d st se rc fw rs|i mj sc ch tx]; destruct m' as [i' d' st'|i' d' st' se'|i' d' st' se' rc' fw' rs'|i' mj' sc' ch' tx'];
      try discriminate N; cbn [BaseSpec.text_ok text_strings text_attrs In] in *; unfold string_ok in *; f_equal;
      first [ solve [eapply (J "bsID"); tauto] | solve [eapply (J "setupID"); tauto] | solve [eapply (J "modifiedJulianDay"); tauto]
            | solve [eapply (J "daySec"); tauto] | solve [eapply (J "charNum"); tauto]
            | solve [eapply (T "descr"); tauto] | solve [eapply (T "serialNumber"); tauto] | solve [eapply (T "rcvDescriptor"); tauto]
            | solve [eapply (T "rcvFWVersion"); tauto] | solve [eapply (T "rcvSerNum"); tauto] | solve [eapply (T "message"); tauto] ].
  - cbn [same_message shows_element] in *. destruct S as (S1 & S2). destruct S' as (S1' & S2').
    assert (J : forall n z z', jget v (ustr n) = Some (JInt z) -> jget v (ustr n) = Some (JInt z') -> z = z') by (intros; congruence).
    split; [apply (J "bsID"); [apply S1|apply S1']; cbn; tauto|]. split; [apply (J "modifiedJulianDay"); [apply S1|apply S1']; cbn; tauto|].
    split; [apply (J "daySec"); [apply S1|apply S1']; cbn; tauto|]. split; [apply (J "leapSec"); [apply S1|apply S1']; cbn; tauto|].
    split; [apply (J "Nm"); [apply S1|apply S1']; cbn; tauto|]. intros n. specialize (S2 n). specialize (S2' n).
    destruct (BaseSpec.announced l n) as [a|] eqn:A; destruct (BaseSpec.announced l' n) as [a'|] eqn:A'.
    + destruct S2 as (e & E & ->). destruct S2' as (e' & E' & ->). rewrite E in E'. cbn [jv_of map] in E'. apply announced_id in A, A'.
      destruct a as [i s p], a' as [i' s' p']. cbn [an_id an_sync an_period] in *. congruence.
    + destruct S2 as (e & E & _). congruence.
    + destruct S2' as (e & E & _). congruence.
    + reflexivity.
  - cbn [same_message shows_element] in *. destruct S as (_ & S1 & S2 & S3). destruct S' as (_ & S1' & S2' & S3').
    split; [congruence|]. split; [congruence|].
    assert (O : forall n o o', In (n, o) (bias_list b) -> In (n, o') (bias_list b') -> o = o').
    { intros n o o' I I'. destruct (S3 n o I) as (V & q & P & ->). destruct (S3' n o' I') as (V' & q' & P' & ->). cbn [jv_of] in P, P'.
      destruct o, o'; cbn [BaseSpec.present value_or_0] in *; congruence. }
    destruct b as [b1 b2 b3 b4], b' as [c1 c2 c3 c4]. unfold bias_list in O. cbn [b_l1ca b_l1p b_l2ca b_l2p In] in O.
    f_equal; [apply (O "1C")|apply (O "1P")|apply (O "2C")|apply (O "2P")]; tauto.
  - cbn [same_message shows_element brings] in *. destruct B as (OK & _). destruct B' as (OK' & _).
    assert (m_gnss m = m_gnss m' /\ m_type m = m_type m') as (G & T).
    { unfold msm_number in N. destruct (m_gnss m), (m_type m), (m_gnss m'), (m_type m'); cbn in N; try discriminate N; split; reflexivity. }
    exact (msm_inj ctl m m' v H OK OK' G T S S').
Qed.

Lemma received_brought bare frames msgs x : Forall2 (receives bare) frames msgs -> In x (received msgs) -> exists f, brings bare f x.
Proof.
  induction 1 as [|f o frames msgs R F IH]; intros I; [destruct I|]. unfold received in I. cbn [flat_map] in I. apply in_app_or in I.
  destruct I as [I|I]; [|exact (IH I)]. destruct R as [f y B|f N]; [|destruct I]. destruct I as [<-|[]]. now exists f.
Qed.

(** What a bare JSON file of the number [num] has to do with the messages of a recording. *)
Definition shown_in (ctl : json_controls) (num : Z) (file : option (list Z)) (l : list message) : Prop :=
  match filter (element_of "JSON-B" num) l with
  | [] => file = None
  | l => exists text, file = Some text /\ json_file ctl true num l text
  end.
Lemma lossless_core ctl frames frames' msgs msgs' num file : enable_hdr_data ctl = true ->
  Forall2 (receives true) frames msgs -> Forall2 (receives true) frames' msgs' ->
  shown_in ctl num file (received msgs) -> shown_in ctl num file (received msgs') ->
  Forall2 same_message (filter (fun x => message_number x =? num) (received msgs)) (filter (fun x => message_number x =? num) (received msgs')).
Proof.
  intros H R R' D D'. unfold shown_in in D, D'.
  assert (Q : forall l, filter (element_of "JSON-B" num) l = filter (fun x => message_number x =? num) l).
  { intros l. apply filter_ext. intros x. unfold element_of, in_json. destruct x; reflexivity. }
  rewrite Q in D, D'.
  assert (B : forall x, In x (filter (fun x => message_number x =? num) (received msgs)) -> message_number x = num /\ exists f, brings true f x).
  { intros x I. apply filter_In in I. destruct I as (I & K). split; [now apply Z.eqb_eq|exact (received_brought _ _ _ _ R I)]. }
  assert (B' : forall x, In x (filter (fun x => message_number x =? num) (received msgs')) -> message_number x = num /\ exists f, brings true f x).
  { intros x I. apply filter_In in I. destruct I as (I & K). split; [now apply Z.eqb_eq|exact (received_brought _ _ _ _ R' I)]. }
  assert (W : forall l l' els, (forall x, In x l -> message_number x = num /\ exists f, brings true f x) ->
     (forall x, In x l' -> message_number x = num /\ exists f, brings true f x) ->
     Forall2 (shows_element ctl true) l els -> Forall2 (shows_element ctl true) l' els -> Forall2 same_message l l').
  { clear - H. intros l l' els BL BL' F. revert l' BL'. induction F as [|x v l els Sx F IH]; intros l' BL' F'; inversion F' as [|y v' l0 els' Sy F0]; subst; constructor.
    - destruct (BL x (or_introl eq_refl)) as (Nx & fx & Bx). destruct (BL' y (or_introl eq_refl)) as (Ny & fy & By).
      exact (shown_same ctl fx fy x y v H Bx By ltac:(congruence) Sx Sy).
    - apply IH; [intros z I; apply BL; now right|intros z I; apply BL'; now right|exact F0]. }
  destruct (filter (fun x => message_number x =? num) (received msgs)) as [|x l]; destruct (filter (fun x => message_number x =? num) (received msgs')) as [|y l'].
  - constructor.
  - destruct D' as (t & T & _). congruence.
  - destruct D as (t & T & _). congruence.
  - destruct D as (t & T & cls & els & A & RJ & F). destruct D' as (t' & T' & cls' & els' & A' & RJ' & F').
    assert (t' = t) as -> by congruence. rewrite RJ in RJ'. assert (els' = els) as -> by congruence.
    exact (W (x :: l) (y :: l') els B B' F F').
Qed.

(** C76: if the bare JSON files of a message number, of any two recordings, are equal, then the
    messages of this number in the recordings are the same, one by one. *)
Theorem C76_lossless : forall ctl src src' content content' f f' segs segs' rest rest' msgs msgs' num sub name,
  enable_hdr_data (box_json ctl) = true ->
  products "JSON-B" ctl src content f -> products "JSON-B" ctl src' content' f' ->
  scans content segs rest -> scans content' segs' rest' ->
  Forall2 (receives true) (frames_of segs) msgs -> Forall2 (receives true) (frames_of segs') msgs' ->
  json_place num sub name ->
  f (work_folder src "JSON-B" ++ [sub; name]) = f' (work_folder src' "JSON-B" ++ [sub; name]) ->
  Forall2 same_message (filter (fun x => message_number x =? num) (received msgs)) (filter (fun x => message_number x =? num) (received msgs')).
Proof.
  intros ctl src src' content content' f f' segs segs' rest rest' msgs msgs' num sub name H P P' S S' R R' PL E.
  assert (M : In "JSON-B" modes) by (cbn; tauto).
  pose proof (C68_products "JSON-B" ctl src content f segs rest msgs M P S R num sub name PL) as D.
  pose proof (C68_products "JSON-B" ctl src' content' f' segs' rest' msgs' M P' S' R' num sub name PL) as D'. cbv zeta in D, D'.
  rewrite <- E in D'. exact (lossless_core _ _ _ _ _ _ _ H R R' D D').
Qed.
Print Assumptions C76_lossless.

(** The same for any two conversions of single files, whatever other files there are. *)
Theorem C76_conversion : forall ctl ord env f src content segs rest msgs g status ord' env' f' src' content' segs' rest' msgs' g' status' num sub name,
  enable_hdr_data (box_json ctl) = true -> controls_ok (box_margo ctl) ->
  walk ord -> (forall n p, env src n p = true) -> inside (work_folder src "JSON-B") src = false ->
  f src = Some content -> bytes_ok content -> scans content segs rest -> Forall2 (receives true) (frames_of segs) msgs ->
  convert_file ord "JSON-B" ctl env f src = (g, Some status) ->
  walk ord' -> (forall n p, env' src' n p = true) -> inside (work_folder src' "JSON-B") src' = false ->
  f' src' = Some content' -> bytes_ok content' -> scans content' segs' rest' -> Forall2 (receives true) (frames_of segs') msgs' ->
  convert_file ord' "JSON-B" ctl env' f' src' = (g', Some status') ->
  json_place num sub name ->
  g (work_folder src "JSON-B" ++ [sub; name]) = g' (work_folder src' "JSON-B" ++ [sub; name]) ->
  Forall2 same_message (filter (fun x => message_number x =? num) (received msgs)) (filter (fun x => message_number x =? num) (received msgs')).
Proof.
  intros ctl ord env f src content segs rest msgs g status ord' env' f' src' content' segs' rest' msgs' g' status' num sub name
    H C W EV IN FS B S R CV W' EV' IN' FS' B' S' R' CV' PL E.
  assert (M : In "JSON-B" modes) by (cbn; tauto).
  pose proof (C68_conversion ord "JSON-B" ctl env f src content segs rest msgs g status M W C EV IN FS B S R CV num sub name PL) as D.
  pose proof (C68_conversion ord' "JSON-B" ctl env' f' src' content' segs' rest' msgs' g' status' M W' C EV' IN' FS' B' S' R' CV' num sub name PL) as D'.
  cbv zeta in D, D'. rewrite <- E in D'. exact (lossless_core _ _ _ _ _ _ _ H R R' D D').
Qed.
Print Assumptions C76_conversion.

(** Two observation messages which differ in nothing but the number of the first satellite. *)
Definition other_rows : list (sat_data * list (option cell_data)) :=
  [({| sd_id := 4; sd_ms := 73; sd_ext := 3; sd_rough := 503; sd_rate := -20 |}, [Some (sample_cell 1); None]);
   (sample_sat 17, [Some (sample_cell 2); Some (sample_cell 3)])].
Definition other_msm7 : msm := sample_msm MSM7 [2; 16] other_rows.
Definition other_frame : list Z := frame_bits (msm_bits other_msm7) [210; 87; 217].
Lemma other_ok : msm_ok other_msm7.
Proof. msm_ok_tac. Qed.
Lemma sample_received : receives true sample_frame (Some (MMsm sample_msm7)).
Proof.
  constructor. cbn [brings]. destruct sample_readable as (R1 & R2 & R3 & R4). split; [exact R1|]. split; [exact R2|]. split; [exact R3|].
  split; [|intros _; exact R4].
  apply frame_bits_carries; [vm_compute; congruence|reflexivity|apply PyBase.bytes_okb_ok; vm_compute; reflexivity].
Qed.
Lemma other_received : receives true other_frame (Some (MMsm other_msm7)).
Proof.
  constructor. cbn [brings]. split; [exact other_ok|]. split; [discriminate|]. split; [apply other_types_pass; discriminate|].
  split; [|discriminate].
  apply frame_bits_carries; [vm_compute; congruence|reflexivity|apply PyBase.bytes_okb_ok; vm_compute; reflexivity].
Qed.
Definition bare_file (hdr : bool) (frames : list (list Z)) : option (list Z) :=
  let src := ["d"; "a.rtcm3"] in
  let box := {| box_margo := default_margo; box_json := {| enable_hdr_data := hdr; enable_aux_data := false; enable_pretty_view := false |} |} in
  fst (convert_file (fun l => l) "JSON-B" box (fun _ => sample_os) (files_of [(src, List.concat frames)]) src) ["d"; "a-JSON-B"; "MSM7"; "GPS-MSM7-1077.json"].

(** Without the headers (the control enable_hdr_data) the claim is false: the masks, which say
    what satellites the values belong to, are missing, and messages of different satellites have
    the same file. *)
Theorem C76_headers_off_refuted :
  valid_frame sample_frame /\ valid_frame other_frame /\
  receives true sample_frame (Some (MMsm sample_msm7)) /\ receives true other_frame (Some (MMsm other_msm7)) /\
  bare_file false [sample_frame] <> None /\ bare_file false [sample_frame] = bare_file false [other_frame] /\
  ~ same_message (MMsm sample_msm7) (MMsm other_msm7).
Proof.
  split; [apply valid_frame_check; vm_compute; reflexivity|]. split; [apply valid_frame_check; vm_compute; reflexivity|].
  split; [exact sample_received|]. split; [exact other_received|].
  split; [vm_compute; discriminate|]. split; [vm_compute; reflexivity|]. cbn [same_message]. vm_compute. discriminate.
Qed.
Print Assumptions C76_headers_off_refuted.

(** Example: with the headers these two messages have different files; a recording with noise
    between the same messages has the same file. *)
Example C76_nonvacuous :
  enable_hdr_data (box_json sample_box) = true /\ controls_ok (box_margo sample_box) /\
  scans (sample_frame ++ other_frame) [Frame sample_frame; Frame other_frame] [] /\
  Forall2 (receives true) [sample_frame; other_frame] [Some (MMsm sample_msm7); Some (MMsm other_msm7)] /\
  json_place 1077 "MSM7" "GPS-MSM7-1077.json" /\
  bare_file true [sample_frame; other_frame] <> None /\
  bare_file true [sample_frame; other_frame] = bare_file true [sample_frame; [1; 2; 3]; other_frame] /\
  bare_file true [sample_frame; other_frame] <> bare_file true [sample_frame; sample_frame] /\
  same_message (MMsm sample_msm7) (MMsm sample_msm7).
Proof.
  split; [reflexivity|]. split; [exact default_controls_ok|].
  split; [rewrite <- (app_nil_r other_frame); constructor; [apply valid_frame_check; vm_compute; reflexivity|]; constructor; [apply valid_frame_check; vm_compute; reflexivity|constructor]|].
  split; [constructor; [exact sample_received|]; constructor; [exact other_received|constructor]|].
  split; [apply (place_msm 0 "GPS" 7); [cbn; tauto|lia]|].
  split; [vm_compute; discriminate|]. split; [vm_compute; reflexivity|]. split; [vm_compute; discriminate|reflexivity].
Qed.
