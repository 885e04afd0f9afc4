(** * LogFrames: the lines about one frame, for PropertiesLog. *)
From Verif Require Import PyBase PyDict PyFloat PyVal PyFormat FormatSpec BitsSpec BitsModel BitsProofs CleanProofs MessageSpec FramerModel FramerSpec FramerProofs TablesModel
  MsmModel MsmSpec MsmProofs MsmTheorems MsmScaleSpec PropertiesMsm EphModel EphTheorems BaseModel BaseProofs
  DecoderModel DecoderSpec DecoderProofs PropertiesDecoder PrinterModel PrinterSpec MainModel MainSpec MainProofs
  ControlsModel SessionModel LogModel LogSpec LogProofs.
Local Open Scope string_scope.
Local Open Scope list_scope.
Local Open Scope Z_scope.

Lemma own_instance o : isinstance (Some o) (class_of o) = true.
Proof.
  unfold isinstance, superclasses. 
  destruct (String.eqb_spec (class_of o) "BaseRPH") as [->|]; [reflexivity|].
  destruct (String.eqb_spec (class_of o) "BaseADSN") as [->|]; [reflexivity|].
  destruct (String.eqb_spec (class_of o) "BaseADSNRC") as [->|]; [reflexivity|]. cbn. now rewrite String.eqb_refl.
Qed.

(** ** The classes of the objects *)
Lemma class_run_decoder cls steps N buf : yields (is_class cls) (run_decoder cls steps N buf).
Proof.
  unfold run_decoder. apply (yields_bind (is_class2 cls)); [apply yc_run_steps; reflexivity|]. intros [o off] H.
  apply yields_any. intros _. apply yields_ok. exact H.
Qed.
Lemma class_run_scalers l ie cls : yields (is_class cls) (run_scalers l ie (new_eph cls)).
Proof.
  unfold run_scalers. apply yields_for_each; [reflexivity|]. intros o [a s] H. do 2 (apply yields_any; intros ?). apply yields_ok. exact H.
Qed.
Lemma class_eph_bare buf n : getbitu buf 24 12 = Ok n -> yields (fun o => announced true n = Some (po_class o) /\ is_msm n = false) (eph_decode_bare buf).
Proof.
  intros E. unfold eph_decode_bare, eph_get_msg_num. apply (yields_num _ _ _ _ E).
  repeat match goal with |- yields _ (if ?a =? ?b then _ else _) =>
    destruct (Z.eqb_spec a b) as [->|?]; [intros o H; apply class_run_decoder in H; unfold is_class in H; rewrite H; split; reflexivity|] end.
  apply yields_err.
Qed.
Lemma class_eph_scale o : yields (is_class (po_class o)) (eph_scale o).
Proof.
  unfold eph_scale. cbv zeta.
  repeat match goal with |- yields _ (if String.eqb ?a ?b then _ else _) =>
    destruct (String.eqb_spec a b) as [->|?]; [apply class_run_scalers|] end.
  apply yields_err.
Qed.
Lemma announced_bare b n : is_msm n = false -> announced b n = announced true n.
Proof. unfold announced. now intros ->. Qed.
Lemma class_eph bare buf n o : getbitu buf 24 12 = Ok n -> eph_decode bare buf = Ok o -> announced bare n = Some (po_class o).
Proof.
  intros E H. unfold eph_decode in H. apply bind_ok in H. destruct H as (b & B & H). apply (class_eph_bare _ _ E) in B. destruct B as [B M].
  rewrite announced_bare by exact M. destruct bare; [congruence|]. apply class_eph_scale in H. unfold is_class in H. congruence.
Qed.

(** What a sub-decoder says about a message, next to what it returns. *)
Section Story.
Context (why : list Z -> exn -> text).
Definition sub_story (bare : bool) (n : Z) (r : res (option rtcm_obj)) (l : list line) : Prop :=
  exists rs, Forall remark rs /\ (rs <> [] -> may_remark bare n) /\
  ((exists o, r = Ok (Some o) /\ announced bare n = Some (class_of o) /\
      l = rs ++ [(LInfo, about n ++ ustr "Decoding succeeded" ++ summary o)]) \/
   (exists e, r = Ok None /\ complaint n e /\ l = rs ++ [(LError, e)])).

Lemma failure_complaint own colon n buf e : complaint n (snd (failure why own colon (Some n) buf e)).
Proof. left. cbn [failure snd]. eexists. unfold msg_, about, number. cbn [num_text]. rewrite <- !app_assoc. reflexivity. Qed.
Lemma failure_pair own colon n buf e : failure why own colon n buf e = (LError, snd (failure why own colon n buf e)).
Proof. reflexivity. Qed.

Lemma subset_letter n : is_msm n = true -> exists g k, msm_subset n = (gnss_letter g, k) /\ 
  k = (if n mod 10 =? 1 then "MSM1" else if n mod 10 =? 2 then "MSM2" else if n mod 10 =? 3 then "MSM3" else if n mod 10 =? 4 then "MSM4"
       else if n mod 10 =? 5 then "MSM5" else if n mod 10 =? 6 then "MSM6" else "MSM7").
Proof.
  intros M. assert (I : In n (zrange 1071 1138)) by (apply zrange_In; unfold is_msm in M; lia).
  assert (T : forallb (fun n => implb (is_msm n) (existsb (fun g => String.eqb (fst (msm_subset n)) (gnss_letter g)) [GPS; GLO; GAL; SBAS; QZSS; BDS; NAVIC] &&
     String.eqb (snd (msm_subset n)) (if n mod 10 =? 1 then "MSM1" else if n mod 10 =? 2 then "MSM2" else if n mod 10 =? 3 then "MSM3" else if n mod 10 =? 4 then "MSM4"
       else if n mod 10 =? 5 then "MSM5" else if n mod 10 =? 6 then "MSM6" else "MSM7"))) (zrange 1071 1138) = true) by (vm_compute; reflexivity).
  rewrite forallb_forall in T. specialize (T n I). rewrite M in T. cbn [implb] in T. apply andb_prop in T. destruct T as [T1 T2].
  apply existsb_exists in T1. destruct T1 as (g & _ & T1). apply String.eqb_eq in T1, T2. exists g, (snd (msm_subset n)).
  split; [|exact T2]. rewrite <- T1. apply surjective_pairing.
Qed.

(** The class and the system of a decoded MSM message. *)
Lemma bare_decode_class buf n b : getbitu buf 24 12 = Ok n -> is_msm n = true -> bare_decode buf = Ok b ->
  announced true n = Some (class_of (OMsm (MsmBare b))) /\ exists g, a_gnss (bare_atr b) = gnss_letter g.
Proof.
  intros E M H. unfold bare_decode, get_msg_num in H. rewrite E in H. cbn [catch_bits bind] in H.
  destruct (subset_letter n M) as (g & k & S & K). rewrite S in H. cbv zeta in H.
  unfold announced. rewrite M. unfold is_msm in M.
  unfold is_msm1, is_msm2, is_msm3, is_msm4, is_msm5, is_msm6, is_msm7 in H. cbn [a_subset] in H.
  assert (R : n mod 10 = 1 \/ n mod 10 = 2 \/ n mod 10 = 3 \/ n mod 10 = 4 \/ n mod 10 = 5 \/ n mod 10 = 6 \/ n mod 10 = 7) by lia.
  destruct R as [R|[R|[R|[R|[R|[R|R]]]]]]; rewrite R in *; cbn in K; subst k; cbn [String.eqb Ascii.eqb Bool.eqb orb] in H;
    (apply bind_ok in H; destruct H as ([h off] & _ & H); destruct (h_sat_mask h =? 0);
     [|apply bind_ok in H; destruct H as ([s sg] & _ & H)]); 
    (assert (X : b = b) by reflexivity; injection H as <-; cbn [bare_atr a_gnss class_of]; split; [reflexivity|eauto]).
Qed.

Lemma msm_story bare buf n : getbitu buf 24 12 = Ok n -> is_msm n = true ->
  sub_story bare n (wrap_msm (decode_msm17 bare buf)) (msm_lines why bare buf).
Proof.
  intros E M. assert (GN : get_msg_num buf = Ok (Some n)) by (unfold get_msg_num; now rewrite E).
  unfold sub_story, msm_lines, decode_msm17. rewrite GN. cbn [bits_lines app].
  destruct (C14_never_raises bare buf) as [r T]. unfold decode_msm17 in T.
  destruct (bare_decode buf) as [b|e] eqn:B.
  2:{ exists []. split; [constructor|]. split; [congruence|]. right. destruct (is_exception e); [|discriminate].
      eexists. split; [reflexivity|]. split; [|rewrite failure_pair; reflexivity].
      apply failure_complaint. }
  destruct (bare_decode_class _ _ _ E M B) as (C & g & G). destruct bare.
  { exists []. split; [constructor|]. split; [congruence|]. left. eexists. split; [reflexivity|]. split; [exact C|].
    cbn [app summary]. unfold msg_, about, number. cbn [num_text]. rewrite <- !app_assoc. reflexivity. }
  pose proof (remarks_convert (Some b)) as RC. pose proof (erase_convert (Some b)) as ER.
  destruct (convert_log (Some b)) as [l cr]. cbn [fst snd] in *. subst cr. exists l. split; [exact RC|].
  split; [intros _; right; now split|].
  destruct (convert (Some b)) as [[o|]|e] eqn:CV.
  - left. eexists. split; [reflexivity|]. split; [unfold announced; now rewrite M|].
    cbn [summary]. unfold msg_, about, number. cbn [num_text]. rewrite <- !app_assoc. reflexivity.
  - exfalso. unfold convert in CV. rewrite G in CV. assert (GL : String.eqb (gnss_letter g) "" = false) by (destruct g; reflexivity).
    rewrite GL in CV. destruct (h_sat_mask _ =? 0); [discriminate|]. cbv zeta in CV.
    apply bind_ok in CV. destruct CV as (? & _ & CV). apply bind_ok in CV. destruct CV as (? & _ & CV). discriminate.
  - destruct (is_exception e); [|discriminate]. right. eexists. split; [reflexivity|]. split; [|reflexivity].
    right. destruct e; 
    first [ exists "Indexing"; eexists; split; [cbn; tauto|]; split; [exact M|]; reflexivity
          | exists "Arithmetic"; eexists; split; [cbn; tauto|]; split; [exact M|]; reflexivity
          | exists "Undefined"; eexists; split; [cbn; tauto|]; split; [exact M|]; reflexivity ].
Qed.

Lemma eph_prefix n c bare : announced bare n = Some c -> In n [1019; 1020; 1041; 1042; 1044; 1045; 1046] -> String.prefix "Eph" c = true.
Proof. intros H I. cbn [In] in I. decompose [or] I; subst; try contradiction; cbn in H; injection H as <-; reflexivity. Qed.

Lemma eph_story bare buf n : getbitu buf 24 12 = Ok n -> In n [1019; 1020; 1041; 1042; 1044; 1045; 1046] ->
  sub_story bare n (wrap_py (subdecoder_eph bare buf)) (eph_lines why bare buf).
Proof.
  intros E I. unfold sub_story, eph_lines, subdecoder_eph. unfold eph_get_msg_num. rewrite E. cbn [bind].
  destruct (eph_never_raises bare buf) as [r T]. unfold subdecoder_eph, eph_get_msg_num in T. rewrite E in T. cbn [bind] in T.
  exists []. split; [constructor|]. split; [congruence|]. destruct (eph_decode bare buf) as [o|e] eqn:D.
  - left. exists (OPy o). split; [reflexivity|]. pose proof (class_eph _ _ _ _ E D) as C. split; [exact C|].
    cbn [app summary]. rewrite (eph_prefix _ _ _ C I). unfold msg_, about, number. cbn [num_text]. rewrite <- !app_assoc. reflexivity.
  - right. destruct (is_exception e); [|discriminate]. eexists. split; [reflexivity|]. split; [|rewrite failure_pair; reflexivity]. apply failure_complaint.
Qed.

Lemma lines1230_remarks buf : getbitu buf 24 12 = Ok 1230 -> Forall remark (lines1230 buf).
Proof.
  intros E. unfold lines1230. destruct (_ <- _ ;; _) as [[[num off] v]|e] eqn:H; [|constructor].
  apply bind_ok in H. destruct H as ([bs o] & _ & H). rewrite E in H. cbn [bind] in H.
  apply bind_ok in H. destruct H as (vv & _ & H). assert (num = 1230) as -> by congruence. clear H.
  apply al_each. intros o' [mask name]. destruct (negb _); [|constructor].
  apply al_also; [constructor|]. intros c. apply al_also; [|constructor].
  destruct (c =? -32768); [|constructor]. constructor; [|constructor]. left. split; [reflexivity|]. right.
  eexists. cbn [snd]. unfold msg_. cbn [num_text]. change (py_int_str 1230) with (ustr "1230").
  rewrite <- !app_assoc. reflexivity.
Qed.

Lemma base_prefix n c bare : announced bare n = Some c -> In n [1005; 1006; 1007; 1008; 1013; 1029; 1033; 1230] -> String.prefix "Eph" c = false.
Proof. intros H I. cbn [In] in I. decompose [or] I; subst; try contradiction; cbn in H; injection H as <-; reflexivity. Qed.
Lemma base_announced n bare : In n [1005; 1006; 1007; 1008; 1013; 1029; 1033; 1230] -> announced bare n = Some (base_class n).
Proof. intros I. cbn [In] in I. decompose [or] I; subst; try contradiction; reflexivity. Qed.

Lemma base_story bare buf n : getbitu buf 24 12 = Ok n -> In n [1005; 1006; 1007; 1008; 1013; 1029; 1033; 1230] ->
  sub_story bare n (wrap_py (subdecoder_base bare buf)) (base_lines why bare buf).
Proof.
  intros E I. destruct (sub_base_cases bare buf n E) as [[o Ho]|Ho].
  - pose proof (class_base _ _ _ _ E Ho) as C. pose proof (sub_base_inv _ _ _ Ho) as D. rewrite Ho.
    unfold sub_story, base_lines, base_get_msg_num. rewrite E, D.
    exists (if n =? 1230 then lines1230 buf else []). split; [destruct (Z.eqb_spec n 1230) as [->|]; [now apply lines1230_remarks|constructor]|].
    split; [intros X; left; destruct (Z.eqb_spec n 1230); congruence|]. left. exists (OPy o). split; [reflexivity|].
    pose proof (base_announced n bare I) as A. cbn [class_of]. rewrite C. split; [exact A|].
    cbn [summary]. rewrite C, (base_prefix _ _ _ A I). unfold msg_, about, number. cbn [num_text]. rewrite app_nil_r, <- !app_assoc. reflexivity.
  - rewrite Ho. unfold sub_story, base_lines, base_get_msg_num. rewrite E. unfold subdecoder_base, base_get_msg_num in Ho. rewrite E in Ho. cbn [bind] in Ho.
    destruct (base_decode bare buf) as [o|e]; [discriminate|].
    exists (if n =? 1230 then lines1230 buf else []). split; [destruct (Z.eqb_spec n 1230) as [->|]; [now apply lines1230_remarks|constructor]|].
    split; [intros X; left; destruct (Z.eqb_spec n 1230); congruence|]. right. destruct (is_exception e); [|discriminate].
    eexists. split; [reflexivity|]. split; [|rewrite failure_pair; reflexivity]. apply failure_complaint.
Qed.
End Story.

(** ** The lines about a frame *)
Section Frame.
Context (why : list Z -> exn -> text).

Lemma std_story bare io buf n cls f : standard bare io -> getbitu buf 24 12 = Ok n -> claims io n cls -> sd_decode io = Some f ->
  sd_subset io = handled_by n /\ sub_story bare n (f buf) (sub_lines why bare (sd_subset io) buf).
Proof.
  intros S E [G A] F. apply zget_in in G.
  assert (H : forall l, (forall x, In x l -> handled_by x = sd_subset io) -> In n l -> sd_subset io = handled_by n) by (intros l HL I; symmetry; now apply HL).
  destruct S as [<-|[<-|[<-|[<-|[]]]]]; cbn [sd_decode sub_msm4567 sub_msm123 sub_eph sub_base sd_subset sd_spec sd_actual] in *.
  - injection F as <-. assert (M : is_msm n = true /\ handled_by n = "MSM47O").
    { assert (T : forallb (fun n => is_msm n && String.eqb (handled_by n) "MSM47O") (map fst (msm47_spec bare)) = true) by (destruct bare; vm_compute; reflexivity).
      rewrite forallb_forall in T. specialize (T _ A). apply andb_prop in T. destruct T as [T1 T2]. apply String.eqb_eq in T2. auto. }
    destruct M as [M N]. split; [now symmetry|]. now apply msm_story.
  - injection F as <-. assert (M : is_msm n = true /\ handled_by n = "MSM13O").
    { assert (T : forallb (fun n => is_msm n && String.eqb (handled_by n) "MSM13O") (map fst (msm13_spec bare)) = true) by (destruct bare; vm_compute; reflexivity).
      rewrite forallb_forall in T. specialize (T _ A). apply andb_prop in T. destruct T as [T1 T2]. apply String.eqb_eq in T2. auto. }
    destruct M as [M N]. split; [now symmetry|]. now apply msm_story.
  - injection F as <-. assert (M : In n [1019; 1020; 1041; 1042; 1044; 1045; 1046]).
    { apply (in_map fst) in G. cbn [map fst eph_spec] in G. cbn [In] in *. lia. }
    split; [cbn [In] in M; decompose [or] M; subst; try contradiction; reflexivity|]. now apply eph_story.
  - injection F as <-. assert (M : In n [1005; 1006; 1007; 1008; 1013; 1029; 1033; 1230]).
    { apply (in_map fst) in G. cbn [map fst base_spec] in G. cbn [In] in *. lia. }
    split; [cbn [In] in M; decompose [or] M; subst; try contradiction; reflexivity|]. now apply base_story.
Qed.

Lemma valid_number f : valid_frame f -> exists n, has_number f n.
Proof.
  intros V. destruct (valid_transport f V) as (p & crc & TF). destruct TF as (-> & L & LC & _ & _). eexists. split; [|reflexivity].
  unfold frame_of. rewrite length_bits_of. rewrite !app_length. cbn [length]. unfold zlen in LC. lia.
Qed.

Lemma frame_story mode frames f : valid_frame f ->
  story mode f (decode_lines why (is_bare mode) (after (map Register (decoders_of mode) ++ map Decode frames)) f).
Proof.
  intros V. pose proof (valid_frame_bytes f V) as B. destruct (valid_number f V) as (n & N).
  pose proof (number_getbitu f n B N) as E.
  assert (MN : mnum f = Ok (Some n)) by (unfold mnum; now rewrite E).
  unfold decode_lines. rewrite decoders_same, MN. cbn [bits_lines app num_text].
  set (h := map Register (decoders_of mode)).
  destruct (find (accepts (Some n)) (map snd (d_decoders (after h)))) as [dec|] eqn:F.
  - pose proof (find_some _ _ F) as [I A]. apply in_table in I. apply accepts_claims in A. destruct A as (cls & C).
    pose proof (force_registered _ _ I) as R. apply (mode_standard mode) in R.
    destruct (std_total _ _ f n R E) as (g & r & SD & GR).
    destruct (std_story _ _ f n cls g R E C SD) as (SS & rs & FR & MR & ST).
    rewrite SD, GR. assert (Ez : zindex (sd_spec dec) n = Ok cls).
    { destruct C as [C _]. unfold zindex, dindex. unfold zget in C. now rewrite C. }
    rewrite Ez. rewrite GR in ST.
    assert (AN : answer h f = match r with Some o => if isinstance (Some o) cls then Ok (Some o) else Ok None | None => Ok None end).
    { unfold answer, decode, decode_body. rewrite MN, F, SD, GR, Ez. destruct r as [o|]; [destruct (isinstance (Some o) cls); reflexivity|reflexivity]. }
    assert (SV : served h f) by (exists dec, n, cls; auto).
    destruct ST as [(o & RO & CL & LL)|(e & RO & CP & LL)].
    + assert (r = Some o) as -> by congruence. rewrite (std_announced _ _ _ _ R (proj1 C)) in CL. assert (cls = class_of o) as -> by congruence.
      rewrite own_instance in *. cbn [negb]. rewrite app_nil_r, LL. apply (story_decoded mode f n o rs); auto.
    + assert (r = None) as -> by congruence. cbn [isinstance negb]. rewrite LL, SS, <- app_assoc. cbn [app].
      apply (story_failed mode f n rs e); auto.
  - apply (story_unknown mode f n N). intros (io & m & cls & I & Nm & C). fold h in I. apply in_table in I.
    rewrite <- (has_number_fun _ _ _ N Nm) in C. pose proof (find_none _ _ F _ I) as X.
    assert (Y : accepts (Some n) io = true) by (apply accepts_claims; eauto). congruence.
Qed.
End Frame.
