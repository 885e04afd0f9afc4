(** * PropertiesUserIni: C55 for all INI files: what the file of -i changes. *)
From Coq Require Import Lia.
From Verif Require Import PyBase PyDict PyVal MargoModel JsonModel PrinterModel MainModel ControlsModel ControlsSpec ControlsProofs PropertiesControls SessionModel SessionSpec PropertiesSession PropertiesConsole.
Local Open Scope string_scope.
Local Open Scope list_scope.
Local Open Scope Z_scope.

(** What is in the first file stays there, perhaps with another value. *)
Lemma dset_keeps {V} (d : list (text * V)) k v k' : dget text_eqb d k' <> None -> dget text_eqb (dset text_eqb d k v) k' <> None.
Proof.
  intros H. destruct (text_eqb k k') eqn:E.
  - apply text_eqb_spec in E. subst k'. rewrite (dget_dset_same text_eqb text_eqb_spec). discriminate.
  - rewrite (dget_dset_other text_eqb text_eqb_spec); [exact H|]. intros ->. rewrite (proj2 (text_eqb_spec k' k') eq_refl) in E. discriminate.
Qed.
Lemma add_options_keeps k : forall new old, dget text_eqb old k <> None -> dget text_eqb (add_options old new) k <> None.
Proof. unfold add_options. induction new as [|[k' v] r IH]; intros old H; [exact H|]. cbn [fold_left fst snd]. apply IH. now apply dset_keeps. Qed.
Lemma merge_keeps name : forall new old own, dget text_eqb old name = Some own -> exists own',
  dget text_eqb (fold_left (fun d s => dset text_eqb d (fst s) (add_options (match dget text_eqb d (fst s) with Some o => o | None => [] end) (snd s))) new old) name = Some own' /\
  forall k, dget text_eqb own k <> None -> dget text_eqb own' k <> None.
Proof.
  induction new as [|[s o] r IH]; intros old own H; [exists own; split; [exact H|auto]|]. cbn [fold_left fst snd].
  destruct (text_eqb s name) eqn:E.
  - apply text_eqb_spec in E. subst s. rewrite H.
    destruct (IH (dset text_eqb old name (add_options own o)) (add_options own o)) as (own' & A & B); [apply (dget_dset_same text_eqb text_eqb_spec)|].
    exists own'. split; [exact A|]. intros k K. apply B. now apply add_options_keeps.
  - apply IH. rewrite (dget_dset_other text_eqb text_eqb_spec); [exact H|]. intros ->. rewrite (proj2 (text_eqb_spec name name) eq_refl) in E. discriminate.
Qed.
Lemma says_keeps a b s o v : says a s o v -> exists v', says (merge a b) s o v'.
Proof.
  intros (own & E & H). destruct (merge_keeps (ustr s) (i_sections b) (i_sections a) own E) as (own' & E' & K).
  unfold says. unfold merge at 1. cbn [i_sections]. destruct (dget text_eqb own' o) as [v'|] eqn:O.
  - exists v', own'. auto.
  - destruct H as [H|(_ & H)]; [exfalso; apply (K o); [rewrite H; discriminate|exact O]|].
    assert (D : dget text_eqb (i_defaults (merge a b)) o <> None) by (apply add_options_keeps; rewrite H; discriminate).
    destruct (dget text_eqb (i_defaults (merge a b)) o) as [v'|] eqn:DV; [|now elim D]. exists v', own'. auto.
Qed.

Lemma getint_some i s o v : says i s o v -> getint i s o <> Ok None.
Proof. intros H. apply says_iff in H. unfold getint. rewrite H. destruct (py_int v); discriminate. Qed.
Lemma getboolean_some i s o v : says i s o v -> getboolean i s o <> Ok None.
Proof. intros H. apply says_iff in H. unfold getboolean. rewrite H. destruct (py_boolean v); discriminate. Qed.

Lemma margo_keeps kord st st1 u : walk_keys kord -> margo_complete (ct_ini st) -> ct_ini st1 = merge (ct_ini st) u -> ct_ini_ok st1 = true ->
  make_MARGO kord st1 <> Ok None.
Proof.
  intros W (_ & S & (v1 & z1 & V1 & _) & (v2 & b2 & V2 & _) & (v3 & b3 & V3 & _)) I OK.
  apply (says_keeps _ u) in V1, V2, V3. destruct V1 as (w1 & V1), V2 as (w2 & V2), V3 as (w3 & V3). rewrite <- I in V1, V2, V3.
  assert (S' : forall sat, 1 <= sat <= 24 -> exists key v, says (ct_ini st1) "LITERALS" key v /\ names_satellite key sat).
  { intros sat R. destruct (S sat R) as (key & v & V & N). apply (says_keeps _ u) in V. destruct V as (w & V). rewrite <- I in V. exists key, w. auto. }
  unfold make_MARGO. rewrite OK. cbn [negb]. destruct (S' 1 ltac:(lia)) as (key1 & x1 & X1 & _).
  rewrite (says_section _ _ _ _ X1), (says_section _ _ _ _ V1), (says_section _ _ _ _ V2). cbn [negb].
  destruct (literals (ct_ini st1) (kord (options (ct_ini st1) "LITERALS")) 0 []) as [[mask lt]|] eqn:L; [|discriminate].
  unfold bind at 1. destruct (literals_inv _ _ _ _ _ _ L table_start) as (T & _ & A).
  destruct (literals_ok (ct_ini st1) (kord (options (ct_ini st1) "LITERALS")) 0 [] A) as (mask' & lt' & L' & _ & Y).
  assert (lt' = lt) by congruence. subst lt'.
  assert (M : mask = 0xFFFFFF).
  { apply (mask_full _ _ T). intros sat R. destruct (S' sat R) as (key & v & V & N). apply (Y key); [|now apply names_iff|exact R].
    apply (ord_in kord W). apply options_iff. eauto. }
  rewrite M, Z.eqb_refl. cbn [negb]. apply getint_some in V1. apply getboolean_some in V2, V3.
  destruct (getint _ _ _) as [[?|]|]; cbn [bind]; [|now elim V1|discriminate].
  destruct (getboolean (ct_ini st1) "MARGO" (ustr "hca")) as [[?|]|]; cbn [bind]; [|now elim V2|discriminate].
  destruct (getboolean (ct_ini st1) "MARGO" (ustr "lock_time")) as [[?|]|]; cbn [bind]; [|now elim V3|discriminate]. discriminate.
Qed.
Lemma json_keeps st st1 u j : json_from (ct_ini st) j -> ct_ini st1 = merge (ct_ini st) u -> ct_ini_ok st1 = true -> make_JSON st1 <> Ok None.
Proof.
  intros ((v1 & V1 & _) & (v2 & V2 & _) & (v3 & V3 & _)) I OK.
  apply (says_keeps _ u) in V1, V2, V3. destruct V1 as (w1 & V1), V2 as (w2 & V2), V3 as (w3 & V3). rewrite <- I in V1, V2, V3.
  unfold make_JSON. rewrite OK. cbn [negb]. rewrite (says_section _ _ _ _ V1). cbn [negb]. apply getboolean_some in V1, V2, V3.
  destruct (getboolean (ct_ini st1) "JSON" (ustr "enable_hdr_data")) as [[?|]|]; cbn [bind]; [|now elim V1|discriminate].
  destruct (getboolean (ct_ini st1) "JSON" (ustr "enable_aux_data")) as [[?|]|]; cbn [bind]; [|now elim V2|discriminate].
  destruct (getboolean (ct_ini st1) "JSON" (ustr "enable_pretty_view")) as [[?|]|]; cbn [bind]; [|now elim V3|discriminate]. discriminate.
Qed.

(** A run with -i that has controls: defaults.ini alone would have given controls as well, and all
    of the controls, MARGO and JSON, are what the two files say together. *)
Theorem C55_rule : forall kord d u c', walk_keys kord -> main_controls kord d (Some u) = Ok (Some c') ->
  (exists c, main_controls kord d None = Ok (Some c)) /\
  let both := configuration [Init d; Update u] in margo_from both (box_margo c') /\ margo_complete both /\ json_from both (box_json c').
Proof.
  intros kord d u c' W. unfold main_controls.
  destruct (init_from_file kord controls_init d) as (st, r) eqn:IN. destruct r as [[]|e]; [|discriminate]. unfold bind at 1.
  destruct (pub_boxed st) as [(m, j)|] eqn:PB.
  2:{ intros H. exfalso. destruct (update_from_file kord st u) as (st', r) eqn:UP. destruct r as [[]|e]; [|discriminate H]. unfold bind in H.
      destruct (update_ok_flags kord st u) as (F & G). rewrite UP in F, G. cbn [fst] in F, G. unfold pub_boxed in PB, H. rewrite F, G in H.
      destruct (ct_json_ok st && ct_margo_ok st); discriminate. }
  intros H. split; [exists {| box_margo := m; box_json := j |}; reflexivity|]. cbv zeta.
  unfold pub_boxed in PB. destruct (ct_json_ok st) eqn:JO; [|discriminate PB]. destruct (ct_margo_ok st) eqn:MO; [|discriminate PB]. cbn [andb] in PB.
  assert (PM : ct_margo st = m) by congruence. assert (PJ : ct_json st = j) by congruence. clear PB.
  assert (I : ct_ini_ok st = true /\ ct_ini st = merge ini_empty (content d) /\ margo_complete (ct_ini st) /\ json_from (ct_ini st) (ct_json st)).
  { unfold init_from_file in IN. destruct d as [|i|i]; cbn [read_ini content] in *.
    - exfalso. change (ct_ini controls_init) with ini_empty in IN. cbn in IN. injection IN as <-. discriminate MO.
    - change (ct_ini controls_init) with ini_empty in IN. destruct (negb _) eqn:N.
      + destruct (make_MARGO kord _) as [om|] eqn:M; [|discriminate IN]. destruct (make_JSON _) as [oj|] eqn:J; [|discriminate IN].
        injection IN as <-. destruct om as [m'|]; [|now destruct oj]. destruct oj as [j'|]; [|discriminate JO].
        apply (make_MARGO_sound kord W) in M. apply make_JSON_sound in J. cbn in M, J |- *. tauto.
      + injection IN as <-. discriminate MO.
    - discriminate IN. }
  destruct I as (IO & I & Cm & Cj).
  change (configuration [Init d; Update u]) with (merge (merge ini_empty (content d)) (content u)). rewrite <- I.
  destruct (update_from_file kord st u) as (st', r) eqn:UP. destruct r as [[]|e]; [|discriminate H]. unfold bind in H.
  unfold update_from_file in UP. rewrite IO in UP. cbn [negb] in UP.
  assert (NE : i_sections (ct_ini st) <> []).
  { rewrite I. unfold init_from_file in IN. destruct d as [|i|i]; cbn [read_ini content] in *.
    - change (ct_ini controls_init) with ini_empty in IN. cbn in IN. injection IN as <-. discriminate MO.
    - change (ct_ini controls_init) with ini_empty in IN. intros E. rewrite E in IN. cbn in IN. injection IN as <-. discriminate MO.
    - discriminate IN. }
  assert (R : exists st1, read_ini st u = (st1, Ok true) /\ ct_ini st1 = merge (ct_ini st) (content u) /\ ct_ini_ok st1 = true /\
              ct_margo_ok st1 = true /\ ct_json_ok st1 = true /\ ct_margo st1 = m /\ ct_json st1 = j).
  { destruct u as [|i|i]; cbn [read_ini content] in *.
    - exists st. rewrite merge_empty, nonempty_len by exact NE. repeat split; assumption.
    - eexists. rewrite nonempty_len by (apply merge_nonempty; now left). split; [reflexivity|]. cbn. repeat split; assumption.
    - discriminate UP. }
  destruct R as (st1 & R & I1 & O1 & M1 & J1 & Em & Ej). rewrite R, M1 in UP. rewrite <- I1.
  destruct (make_MARGO kord st1) as [om|] eqn:M; [|discriminate UP].
  assert (JS : ct_json_ok (set_margo st1 om) = true) by (destruct om; exact J1). rewrite JS in UP. clear JS.
  destruct (make_JSON (set_margo st1 om)) as [oj|] eqn:J; [|discriminate UP]. injection UP as <-.
  assert (EI : ct_ini (set_margo st1 om) = ct_ini st1) by (destruct om; reflexivity).
  assert (EO : ct_ini_ok (set_margo st1 om) = true) by (destruct om; exact O1).
  assert (EM : ct_margo (set_json (set_margo st1 om) oj) = match om with Some x => x | None => m end) by (destruct om, oj; cbn; auto).
  assert (EJ : ct_json (set_json (set_margo st1 om) oj) = match oj with Some x => x | None => j end) by (destruct om, oj; cbn; auto).
  assert (C' : c' = {| box_margo := match om with Some x => x | None => m end; box_json := match oj with Some x => x | None => j end |}).
  { unfold pub_boxed in H. rewrite EM, EJ in H. destruct (_ && _); [|discriminate H]. cbn [option_map fst snd] in H. congruence. }
  subst c'. cbn [box_margo box_json]. clear H.
  destruct om as [m'|]; [|elim (margo_keeps kord st st1 (content u) W Cm I1 O1 M)].
  destruct oj as [j'|]; [|elim (json_keeps st (set_margo st1 (Some m')) (content u) (ct_json st) Cj (eq_trans EI I1) EO J)].
  apply (make_MARGO_sound kord W) in M. apply make_JSON_sound in J. rewrite EI in J. tauto.
Qed.
Print Assumptions C55_rule.

(** Which files can be given with -i: with a defaults.ini that gives controls, exactly those that
    can be read and whose values, where they replace those of defaults.ini or add to them, can be read too. *)
Theorem C55_accepts : forall kord d u, walk_keys kord -> (exists c, main_controls kord d None = Ok (Some c)) ->
  let both := configuration [Init d; Update u] in
  (exists c', main_controls kord d (Some u) = Ok (Some c')) <->
  (forall i, u <> Broken i) /\ margo_complete both /\ exists j, json_from both j.
Proof.
  intros kord d u W (c & E) both. split.
  - intros (c' & E'). split.
    + intros i ->. revert E'. unfold main_controls. destruct (init_from_file kord controls_init d) as (st, r) eqn:IN. destruct r as [[]|e]; [|discriminate].
      unfold bind at 1. unfold update_from_file. destruct (ct_ini_ok st) eqn:IO; cbn [negb]; [discriminate|].
      exfalso. unfold main_controls in E. rewrite IN in E. unfold bind in E.
      assert (X : pub_boxed st = None); [|rewrite X in E; discriminate E].
      unfold init_from_file in IN. destruct d as [|k|k]; cbn [read_ini] in IN; change (ct_ini controls_init) with ini_empty in IN.
      * cbn in IN. injection IN as <-. reflexivity.
      * destruct (negb _) eqn:N.
        -- destruct (make_MARGO kord _) as [om|] eqn:M; [|discriminate IN]. destruct (make_JSON _) as [oj|] eqn:J; [|discriminate IN].
           injection IN as <-. destruct om, oj; discriminate IO.
        -- injection IN as <-. reflexivity.
      * discriminate IN.
    + destruct (C55_rule kord d u c' W E') as (_ & F & G & H). split; [exact G|]. eexists. exact H.
  - intros (B & Cm & j' & Cj). destruct u as [|u|u]; [|clear B|now elim (B u)].
    + exists c. exact (eq_trans (missing_user kord d) E).
    + destruct (C55_rule kord d Missing c W (eq_trans (missing_user kord d) E)) as (_ & _ & Cd & Jd). cbv zeta in Cd, Jd.
      change (configuration [Init d; Update Missing]) with (merge (merge ini_empty (content d)) ini_empty) in Cd, Jd. rewrite merge_empty in Cd, Jd.
      destruct d as [|d|d].
      * exfalso. revert E. vm_compute. discriminate.
      * destruct (C55_user_file_partial kord d u (box_json c) j' W Cd Jd Cm Cj) as (_ & m & M & _). eexists. exact M.
      * exfalso. revert E. unfold main_controls, init_from_file. cbn [read_ini]. discriminate.
Qed.
Print Assumptions C55_accepts.

(** Without controls from defaults.ini no file of -i gives any. *)
Theorem C55_defaults_needed : forall kord d, walk_keys kord -> (forall c, main_controls kord d None <> Ok (Some c)) ->
  forall u c', main_controls kord d (Some u) <> Ok (Some c').
Proof. intros kord d W N u c' E. destruct (C55_rule kord d u c' W E) as ((c & E') & _). exact (N c E'). Qed.
Print Assumptions C55_defaults_needed.

(** Example: a file of -i that changes the leap seconds and switches the auxiliary data off; one
    with a value that cannot be read; and no defaults.ini. *)
Example C55_rule_nonvacuous :
  let u := {| i_sections := [(ustr "TIME", [(ustr "gps2utc", ustr "19")]); (ustr "JSON", [(ustr "enable_aux_data", ustr "no")])]; i_defaults := [] |} in
  (match main_controls ident (Parsed default_ini) (Some (Parsed u)), main_controls ident (Parsed default_ini) None with
   | Ok (Some c'), Ok (Some c) => gps_utc_shift (box_margo c') = 19 /\ gps_utc_shift (box_margo c) = 18 /\
                                  enable_aux_data (box_json c') = false /\ enable_aux_data (box_json c) = true
   | _, _ => False
   end) /\
  (match main_controls ident (Parsed default_ini) (Some (Parsed (only "JSON" "enable_aux_data" "maybe"))) with Err _ => True | _ => False end) /\
  main_controls ident Missing (Some (Parsed default_ini)) = Ok None.
Proof. vm_compute. auto. Qed.
