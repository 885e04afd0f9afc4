(** * Runs of the program: C51, C52, C55, C56. *)
From Coq Require Import Permutation.
From Verif Require Import PyBase PyDict PyFloat PyVal BitsModel TestData FramerSpec DecoderModel MsmModel MsmSpec MargoModel JsonModel JsonFileSpec PrinterModel PrinterSpec PrinterProofs MargoSpec MargoFiles
  NamesSpec NamesProofs MainModel MainSpec MainProofs PropertiesStream PropertiesPrinter PropertiesMain PropertiesFiles ControlsModel ControlsSpec ControlsProofs PropertiesControls SessionModel SessionSpec SessionProofs.
Local Open Scope string_scope.
Local Open Scope list_scope.
Local Open Scope Z_scope.

(** ** C51: every source has its own log *)

(** Whatever happened to the sources before, and whatever is done with the sources after it (as
    long as their work folders do not contain the log): the log of a source that was begun holds
    the messages of its own conversion, all of them, in order, and how it ended; and nothing
    else. *)
Theorem C51_logs : forall mode ctl f before src lk after f' l' outs x o,
  convert_loop mode ctl f logger_init (before ++ (src, lk) :: after) = (f', l', (outs, x)) ->
  nth_error outs (length before) = Some o -> o <> NoFolder -> lk_log lk = Some true ->
  (forall y k, In (y, k) after -> inside (work_folder y mode) (log_path mode src) = false) ->
  f' (log_path mode src) = Some (whole_log (lk_messages lk) o).
Proof.
  intros mode ctl f before src lk after f' l' outs x o H N NF LK OUT.
  destruct (loop_at _ _ _ _ _ _ _ _ _ _ _ _ H N) as (f1 & outs1 & f2 & ox & _ & O & A).
  rewrite (loop_outside _ _ _ _ _ _ _ _ A OUT). exact (one_log _ _ _ _ _ _ _ _ O LK NF).
Qed.
Print Assumptions C51_logs.

(** The loop is broken off only by a log that fails after having been created, or by an exception
    that leaves the decoding function (C38: one that arrives during the final release); never
    because the logger is in use.  In all other cases every source gets its turn. *)
Theorem C51_every_source : forall mode ctl f jobs f' l' outs x, In mode modes ->
  convert_loop mode ctl f logger_init jobs = (f', l', (outs, x)) ->
  match x with
  | None => length outs = length jobs /\ l' = logger_init
  | Some e => exists before src lk after, jobs = before ++ (src, lk) :: after /\ length outs = length before /\
      ((e = EOS /\ lk_log lk = None) \/
       (exists c source s, decode_rtcm_file (lk_ord lk) (lk_faults lk) source (started c) = (s, Err e)))
  end.
Proof.
  intros mode ctl f jobs f' l' outs x M. revert f f' l' outs x.
  induction jobs as [|[src lk] jobs IH]; intros f f' l' outs x H; cbn [convert_loop] in H.
  - assert (outs = [] /\ x = None /\ l' = logger_init) as (-> & -> & ->) by (repeat split; congruence). auto.
  - destruct (convert_one mode ctl lk f logger_init src) as [[f1 l1] [o|e]] eqn:O.
    + rewrite (one_idle _ _ _ _ _ _ _ _ O) in H. destruct (convert_loop mode ctl f1 logger_init jobs) as [[f2 l2] [o2 x2]] eqn:R.
      assert (l' = l2 /\ outs = o :: o2 /\ x = x2) as (-> & -> & ->) by (repeat split; congruence). specialize (IH _ _ _ _ _ R).
      destruct x2 as [e|].
      * destruct IH as (b & s & k & a & -> & L & C). exists ((src, lk) :: b), s, k, a. cbn [length app]. auto.
      * destruct IH as (L & ->). cbn [length]. auto.
    + assert (outs = [] /\ x = Some e) as (-> & ->) by (split; congruence). clear H. exists [], src, lk, jobs. split; [reflexivity|]. split; [reflexivity|].
      apply one_cases in O. destruct O as [(Q & _)|[(Q & _ & LK & _)|(_ & _ & _ & _ & O)]]; [discriminate|left; split; [congruence|exact LK]|].
      cbv zeta in O. destruct ctl as [ctl|]; [|destruct O; discriminate].
      destruct (factory_exists mode (lk_os lk) ctl M) as (c & F). rewrite F in O. destruct O as (s & [b|e'] & D & Q); [destruct Q; discriminate|].
      right. exists c. eexists. exists s. rewrite D. f_equal. destruct Q; congruence.
Qed.
Print Assumptions C51_every_source.

(** Three sources: one converted, one interrupted at its first message, one whose log cannot be created. *)
Definition sample_luck (ms : list (level * text)) : luck :=
  {| lk_rmtree := None; lk_mkdir := true; lk_log := Some true; lk_os := sample_os; lk_faults := no_faults;
     lk_ord := fun l => l; lk_messages := ms |}.
Definition sample_jobs : list (path * luck) :=
  [(["d"; "a.rtcm3"], sample_luck [(LInfo, ustr "one"); (LDebug, ustr "hidden")]);
   (["d"; "b.rtcm3"], {| lk_rmtree := None; lk_mkdir := true; lk_log := Some true; lk_os := sample_os; lk_faults := interrupt_at 5;
                         lk_ord := fun l => l; lk_messages := [(LError, ustr "two")] |});
   (["d"; "c.rtcm3"], {| lk_rmtree := None; lk_mkdir := true; lk_log := Some false; lk_os := sample_os; lk_faults := no_faults;
                         lk_ord := fun l => l; lk_messages := [(LError, ustr "three")] |})].
Definition sample_fs : fs :=
  files_of [(["d"; "a.rtcm3"], sample_1005); (["d"; "b.rtcm3"], sample_1029); (["d"; "c.rtcm3"], sample_1029); (["d"; "a-JSON"; "old"], [1])].
Example C51_nonvacuous :
  let '(f', l', (outs, x)) := convert_loop "JSON" (Some sample_box) sample_fs logger_init sample_jobs in
  outs = [Finished WithoutErrors; Finished Terminated; Finished WithoutErrors] /\ x = None /\
  f' ["d"; "a-JSON"; "a-log.txt"] = Some (header ++ ustr "RTCMDEC:INFO: one" ++ [10] ++ ustr "RTCMDEC:PROGRESS: Finished without errors." ++ [10]) /\
  f' ["d"; "b-JSON"; "b-log.txt"] = Some (header ++ ustr "RTCMDEC:ERROR: two" ++ [10] ++ ustr "RTCMDEC:ERROR: Decoding was terminated." ++ [10]) /\
  f' ["d"; "c-JSON"; "c-log.txt"] = None /\
  map (present f') [["d"; "a-JSON"; "BASE"; "RefPoint-1005.json"]; ["d"; "c-JSON"; "BASE"; "TextStr-1029.json"]; ["d"; "a-JSON"; "old"]] = [true; true; false].
Proof. vm_compute. repeat split. Qed.

(** ** C52: a conversion that cannot be started *)

(** What is true: without controls nothing outside the work folder of the source changes, and
    what is in it afterwards is either from before (the folder could not be made anew) or the
    log.  Missing: products of an earlier conversion are not kept. *)
Theorem C52_aborted_partial : forall mode lk f src f' l' r,
  convert_one mode None lk f logger_init src = (f', l', r) ->
  (forall p, inside (work_folder src mode) p = false -> f' p = f p) /\
  (r <> Ok NoFolder -> forall p, inside (work_folder src mode) p = true -> f' p <> None -> p = log_path mode src).
Proof.
  intros mode lk f src f' l' r H. split; [intros p N; exact (one_outside _ _ _ _ _ _ _ _ _ H N)|].
  intros NF p I N. destruct (list_eq_dec string_dec p (log_path mode src)) as [E|NL]; [exact E|]. exfalso. apply N.
  pose proof H as H0. apply one_cases in H. destruct H as [(-> & _)|[(E & _ & LK & _)|(_ & _ & _ & _ & H)]]; [congruence| |].
  - unfold convert_one, create_work_folder in H0. destruct (f (work_folder src mode)); [congruence|].
    destruct (lk_rmtree lk); [congruence|]. destruct (lk_mkdir lk); [|congruence]. unfold init_logger in H0. rewrite LK in H0.
    assert (f' = fs_set (rmtree (work_folder src mode) f) (log_path mode src) []) as -> by congruence.
    unfold fs_set, rmtree. now rewrite (path_eqb_neq _ _ NL), I.
  - cbv zeta in H. destruct H as (_ & _ & ->). rewrite (chosen_other _ _ _ _ _ NL), (begun_other _ _ _ _ NL). unfold rmtree. now rewrite I.
Qed.
Print Assumptions C52_aborted_partial.

(** A run that has no controls (say, started in a directory without defaults.ini) converts
    nothing, but deletes the products of earlier runs. *)
Theorem C52_products_lost_refuted : exists kord mode f jobs f' l' p,
  walk_keys kord /\ main kord Missing None mode f jobs = (f', l', ([NoControls], None)) /\ f p <> None /\ f' p = None.
Proof.
  exists ident, "JSON", sample_fs, [(["d"; "a.rtcm3"], sample_luck [])].
  destruct (main ident Missing None "JSON" sample_fs [(["d"; "a.rtcm3"], sample_luck [])]) as [[f' l'] ox] eqn:E.
  exists f', l', ["d"; "a-JSON"; "old"]. split; [exact ident_walk|]. split.
  - assert (X : snd (main ident Missing None "JSON" sample_fs [(["d"; "a.rtcm3"], sample_luck [])]) = ([NoControls], None)) by (vm_compute; reflexivity).
    rewrite E in X. cbn [snd] in X. now rewrite X.
  - split; [vm_compute; discriminate|].
    assert (X : fst (fst (main ident Missing None "JSON" sample_fs [(["d"; "a.rtcm3"], sample_luck [])])) ["d"; "a-JSON"; "old"] = None) by (vm_compute; reflexivity).
    now rewrite E in X.
Qed.
Print Assumptions C52_products_lost_refuted.

Example C52_nonvacuous : exists f' l',
  convert_one "JSON" None (sample_luck []) sample_fs logger_init ["d"; "a.rtcm3"] = (f', l', Ok NoControls) /\
  present f' ["d"; "a-JSON"; "a-log.txt"] = true /\ present f' ["d"; "a.rtcm3"] = true.
Proof. eexists. eexists. split; [reflexivity|]. split; vm_compute; reflexivity. Qed.

(** ** C55: the file of the option -i *)

Lemma complete_sections i : margo_complete i -> i_sections i <> [].
Proof. intros (_ & _ & (v & z & (own & V & _) & _) & _). destruct (i_sections i); [discriminate V|discriminate]. Qed.
Lemma merge_source i : i_sections (merge ini_empty i) <> [] -> i_sections i <> [].
Proof. destruct i as [[|s r] d]; [intros H; now elim H|discriminate]. Qed.

(** What is true: if defaults.ini is complete and defaults.ini followed by the file of -i is
    complete, then the controls of the run are those that the two files together give.  Missing:
    the file of -i is not used when defaults.ini is missing or not complete. *)
Theorem C55_user_file_partial : forall kord d u j j', walk_keys kord ->
  margo_complete (configuration [Init (Parsed d)]) -> json_from (configuration [Init (Parsed d)]) j ->
  margo_complete (configuration [Init (Parsed d); Update (Parsed u)]) ->
  json_from (configuration [Init (Parsed d); Update (Parsed u)]) j' ->
  (exists m, main_controls kord (Parsed d) None = Ok (Some {| box_margo := m; box_json := j |}) /\
     margo_from (configuration [Init (Parsed d)]) m) /\
  (exists m, main_controls kord (Parsed d) (Some (Parsed u)) = Ok (Some {| box_margo := m; box_json := j' |}) /\
     margo_from (configuration [Init (Parsed d); Update (Parsed u)]) m).
Proof.
  intros kord d u j j' W C1 J1 C2 J2.
  assert (NE : i_sections (merge ini_empty d) <> []) by (apply complete_sections; exact C1).
  change (configuration [Init (Parsed d)]) with (merge ini_empty d) in *.
  change (configuration [Init (Parsed d); Update (Parsed u)]) with (merge (merge ini_empty d) u) in *.
  unfold main_controls. unfold init_from_file. cbn [read_ini]. change (ct_ini controls_init) with ini_empty.
  rewrite (nonempty_len _ NE). cbv beta iota zeta.
  match goal with |- context[make_MARGO kord ?x] => set (st := x) end.
  assert (O : ct_ini_ok st = true) by reflexivity. assert (I : ct_ini st = merge ini_empty d) by reflexivity.
  assert (C1' : margo_complete (ct_ini st)) by (rewrite I; exact C1).
  destruct (make_MARGO_complete kord W st O C1') as (m & M). rewrite M.
  pose proof (make_MARGO_sound kord W st m M) as (_ & S & _). rewrite I in S.
  match goal with |- context[make_JSON ?x] => set (st2 := x) end.
  assert (J1' : json_from (ct_ini st2) j) by exact J1. rewrite (make_JSON_complete st2 j eq_refl J1'). cbv beta iota zeta. unfold bind at 1 2.
  split; [exists m; split; [reflexivity|exact S]|].
  match goal with |- context[update_from_file kord ?x (Parsed u)] => set (st3 := x) end.
  assert (O3 : ct_ini_ok st3 = true) by reflexivity. assert (I3 : ct_ini st3 = merge ini_empty d) by reflexivity.
  unfold update_from_file. rewrite O3. cbn [negb read_ini]. rewrite I3.
  rewrite (nonempty_len _ (merge_nonempty _ u (or_introl NE))). cbv beta iota zeta.
  match goal with |- context[make_MARGO kord ?x] => set (st4 := x) end.
  assert (O4 : ct_ini_ok st4 = true) by reflexivity. assert (I4 : ct_ini st4 = merge (merge ini_empty d) u) by reflexivity.
  assert (C2' : margo_complete (ct_ini st4)) by (rewrite I4; exact C2).
  destruct (make_MARGO_complete kord W st4 O4 C2') as (m2 & M2). 
  change (ct_margo_ok st4) with true. cbv iota. rewrite M2. 
  pose proof (make_MARGO_sound kord W st4 m2 M2) as (_ & S2 & _). rewrite I4 in S2.
  change (ct_json_ok (set_margo st4 (Some m2))) with true. cbv iota.
  assert (J2' : json_from (ct_ini (set_margo st4 (Some m2))) j') by exact J2.
  rewrite (make_JSON_complete (set_margo st4 (Some m2)) j' O4 J2'). cbv beta iota zeta. unfold bind.
  exists m2. split; [reflexivity|exact S2].
Qed.
Print Assumptions C55_user_file_partial.

(** A parsed file has no section and no option twice ([ConfigParser] refuses such files). *)
Definition no_duplicates (i : ini) : Prop :=
  NoDup (map fst (i_sections i)) /\ Forall (fun s => NoDup (map fst (snd s))) (i_sections i).

Lemma add_options_get k : forall new old, NoDup (map fst new) ->
  dget text_eqb (add_options old new) k = match dget text_eqb new k with Some v => Some v | None => dget text_eqb old k end.
Proof.
  unfold add_options. induction new as [|[k' v] new IH]; intros old N; [reflexivity|]. cbn [map fst] in N. inversion N as [|? ? NI N']; subst.
  cbn [fold_left fst snd]. rewrite (IH _ N'). cbn [dget fst snd]. destruct (text_eqb k k') eqn:E.
  - apply text_eqb_spec in E. subst k'. rewrite (proj2 (dget_None text_eqb text_eqb_spec new k) NI). now rewrite (dget_dset_same text_eqb text_eqb_spec).
  - rewrite (dget_dset_other text_eqb text_eqb_spec); [reflexivity|]. intros ->. rewrite (proj2 (text_eqb_spec k k) eq_refl) in E. discriminate.
Qed.
Definition or_none {A} (x : option (list A)) : list A := match x with Some o => o | None => [] end.
Lemma merge_section name : forall new old, NoDup (map fst new) ->
  dget text_eqb (fold_left (fun d s => dset text_eqb d (fst s) (add_options (or_none (dget text_eqb d (fst s))) (snd s))) new old) name =
  match dget text_eqb new name with
  | Some o => Some (add_options (or_none (dget text_eqb old name)) o)
  | None => dget text_eqb old name
  end.
Proof.
  induction new as [|[k' o] new IH]; intros old N; [reflexivity|]. cbn [map fst] in N. inversion N as [|? ? NI N']; subst.
  cbn [fold_left fst snd]. rewrite (IH _ N'). cbn [dget fst snd]. destruct (text_eqb name k') eqn:E.
  - apply text_eqb_spec in E. subst k'. rewrite (proj2 (dget_None text_eqb text_eqb_spec new name) NI). now rewrite (dget_dset_same text_eqb text_eqb_spec).
  - rewrite (dget_dset_other text_eqb text_eqb_spec); [reflexivity|]. intros ->. rewrite (proj2 (text_eqb_spec name name) eq_refl) in E. discriminate.
Qed.
Definition own_option (i : ini) (section : string) (o : text) : option text :=
  match dget text_eqb (i_sections i) (ustr section) with Some own => dget text_eqb own o | None => None end.
Lemma merge_own a b section o : no_duplicates b ->
  own_option (merge a b) section o = match own_option b section o with Some v => Some v | None => own_option a section o end.
Proof.
  intros (N & F). unfold own_option, merge. cbn [i_sections]. pose proof (merge_section (ustr section) (i_sections b) (i_sections a) N) as E.
  unfold or_none in E. rewrite E. clear E. destruct (dget text_eqb (i_sections b) (ustr section)) as [ob|] eqn:B; [|reflexivity].
  rewrite Forall_forall in F. pose proof (dget_In text_eqb text_eqb_spec _ _ _ B) as I. apply F in I. cbn [snd] in I.
  rewrite (add_options_get o ob _ I). destruct (dget text_eqb ob o); [reflexivity|]. destruct (dget text_eqb (i_sections a) (ustr section)); reflexivity.
Qed.

(** An option that the file of -i has in a section is what the configuration says there; one that
    it does not have keeps the value of defaults.ini. *)
Theorem C55_user_wins : forall d u section o v, no_duplicates d -> no_duplicates u ->
  (own_option u section o = Some v -> says (configuration [Init (Parsed d); Update (Parsed u)]) section o v) /\
  (own_option u section o = None -> own_option d section o = Some v ->
     says (configuration [Init (Parsed d); Update (Parsed u)]) section o v).
Proof.
  intros d u section o v ND NU. change (configuration [Init (Parsed d); Update (Parsed u)]) with (merge (merge ini_empty d) u).
  assert (X : own_option (merge (merge ini_empty d) u) section o = Some v -> says (merge (merge ini_empty d) u) section o v).
  { unfold own_option, says. destruct (dget text_eqb _ (ustr section)) as [own|]; [|discriminate]. intros E. exists own. auto. }
  rewrite (merge_own _ u section o NU) in X. split.
  - intros E. apply X. now rewrite E.
  - intros E D. apply X. rewrite E, (merge_own ini_empty d section o ND), D. reflexivity.
Qed.
Print Assumptions C55_user_wins.

(** A complete file given with -i is not used when there is no defaults.ini, or when defaults.ini
    lacks something. *)
Theorem C55_user_file_ignored_refuted : exists kord u,
  walk_keys kord /\ (exists ctl, main_controls kord (Parsed u) None = Ok (Some ctl)) /\
  main_controls kord Missing (Some (Parsed u)) = Ok None /\
  main_controls kord (Parsed (only "TIME" "gps2utc" "18")) (Some (Parsed u)) = Ok None.
Proof.
  exists ident, default_ini. split; [exact ident_walk|]. split; [eexists; vm_compute; reflexivity|]. split; vm_compute; reflexivity.
Qed.
Print Assumptions C55_user_file_ignored_refuted.

Example C55_nonvacuous :
  let u := only "JSON" "enable_aux_data" "no" in
  margo_complete (configuration [Init (Parsed default_ini)]) /\
  margo_complete (configuration [Init (Parsed default_ini); Update (Parsed u)]) /\
  (exists m j, main_controls ident (Parsed default_ini) (Some (Parsed u)) = Ok (Some {| box_margo := m; box_json := j |}) /\
     enable_aux_data j = false /\ enable_hdr_data j = true) /\
  no_duplicates u /\ own_option u "JSON" (ustr "enable_aux_data") = Some (ustr "no").
Proof.
  cbv zeta. split; [apply complete_check; vm_compute; reflexivity|]. split; [apply complete_check; vm_compute; reflexivity|].
  split; [eexists; eexists; split; [vm_compute; reflexivity|split; reflexivity]|].
  split; [|vm_compute; reflexivity]. split; cbn; repeat constructor; cbn; tauto.
Qed.

(** ** C56: from the files of the user to the products *)

Lemma one_lucky mode ctl lk f src content : In mode modes -> controls_ok (box_margo ctl) -> lucky lk ->
  f (work_folder src mode) = None -> inside (work_folder src mode) src = false -> f src = Some content -> bytes_ok content ->
  exists f1 st, convert_one mode (Some ctl) lk f logger_init src = (f1, logger_init, Ok (Finished st)) /\
    exists f2, convert_file (lk_ord lk) mode ctl (fun _ => lk_os lk) f src = (f2, Some st) /\ forall p, p <> log_path mode src -> f1 p = f2 p.
Proof.
  intros M C (L1 & L2 & L3 & L4 & L5 & L6) FF NI FS B.
  destruct (convert_one mode (Some ctl) lk f logger_init src) as [[f1 l1] r] eqn:E.
  pose proof E as E0. apply one_cases in E. destruct E as [(-> & _ & _)|[(_ & _ & X & _)|(_ & _ & _ & _ & E)]].
  - exfalso. unfold convert_one, create_work_folder in E0. rewrite FF, L1, L2, (init_idle lk) in E0 by exact L3.
    destruct (factory mode true (lk_os lk) ctl) as [[c|]|e]; try congruence. destruct (decode_rtcm_file _ _ _ _) as [s [b|e]]; congruence.
  - congruence.
  - cbv zeta in E. destruct (factory_exists mode (lk_os lk) ctl M) as (c & F). rewrite F in E. destruct E as (s & d & D & E).
    rewrite (begun_other _ _ _ _ (not_log _ _ _ NI)) in D. unfold rmtree in D. rewrite NI, FS, L5 in D. unfold regular_file in D.
    destruct (C06_framing_reference [content]) as (_ & segs & rest & _ & S & _); [constructor; [exact B|constructor]|]. cbn [concat] in S. rewrite app_nil_r in S.
    assert (ZL : content <> [] -> zlen content <> 0) by (unfold zlen; destruct content; [congruence|cbn [length]; lia]).
    destruct (C38_products mode (lk_os lk) ctl c (lk_ord lk) (zlen content) _ content segs rest F L6 C B (regular_reads content) ZL S) as (s' & D' & _).
    assert (d = Ok true) as -> by congruence. assert (s' = s) as -> by congruence. clear D'. cbv zeta in E. destruct E as (-> & -> & ->).
    eexists. eexists. split; [reflexivity|]. unfold convert_file. rewrite FF, F. unfold rmtree at 1. rewrite NI, FS. unfold regular_file. rewrite D.
    eexists. split; [reflexivity|]. intros p NL. rewrite (chosen_other _ _ _ _ _ NL), (chosen_all_other _ _ _ _ _ NL).
    unfold put. destruct (inside (work_folder src mode) p); [|now apply begun_other].
    destruct (skipn _ p) as [|a [|b [|? ?]]]; try now apply begun_other. destruct (sget _ _); [reflexivity|]. now apply begun_other.
Qed.

Lemma loop_lucky mode ctl all f0 : In mode modes -> controls_ok (box_margo ctl) -> independent mode all ->
  (forall src, In src all -> f0 (work_folder src mode) = None /\ exists content, f0 src = Some content /\ bytes_ok content) ->
  forall jobs f f' l' outs x, incl (map fst jobs) all -> (forall src lk, In (src, lk) jobs -> lucky lk) ->
  (forall src, In src all -> f (work_folder src mode) = f0 (work_folder src mode) /\ f src = f0 src) ->
  convert_loop mode (Some ctl) f logger_init jobs = (f', l', (outs, x)) -> x = None.
Proof.
  intros M C IND H0 jobs. induction jobs as [|[src lk] jobs IH]; intros f f' l' outs x IN LK SAME H; cbn [convert_loop] in H; [congruence|].
  assert (Is : In src all) by (apply IN; now left). destruct (H0 src Is) as (FF & content & FS & B). destruct (SAME src Is) as (S1 & S2).
  destruct (one_lucky mode ctl lk f src content) as (f1 & st & E & _); auto; try congruence; [apply (LK src); now left|now apply (IND src src)|].
  rewrite E in H. destruct (convert_loop mode (Some ctl) f1 logger_init jobs) as [[f2 l2] [o2 x2]] eqn:R. assert (x = x2) as -> by congruence.
  apply (IH _ _ _ _ _ (fun y I => IN y (or_intror I)) (fun y k I => LK y k (or_intror I))) in R; [exact R|].
  intros y Iy. destruct (SAME y Iy) as (Y1 & Y2). destruct (IND src y Is Iy) as (SEP & NIy).
  rewrite <- Y1, <- Y2. split; apply (one_outside _ _ _ _ _ _ _ _ _ E); [|exact NIy].
  destruct SEP as [->|(_ & N & _)]; [apply inside_irrefl|exact N].
Qed.

Lemma last_job src (jobs : list (path * luck)) : In src (map fst jobs) ->
  exists before lk after, jobs = before ++ (src, lk) :: after /\ ~ In src (map fst after).
Proof.
  induction jobs as [|[y k] jobs IH]; cbn [map fst]; [intros []|]. intros I.
  destruct (in_dec (list_eq_dec string_dec) src (map fst jobs)) as [I'|N].
  - destruct (IH I') as (b & lk & a & -> & NA). exists ((y, k) :: b), lk, a. auto.
  - destruct I as [->|I]; [|contradiction]. exists [], k, jobs. auto.
Qed.

(** A run on any number of sources (given in any order, perhaps repeatedly) with usable controls
    and separate work folders, and without trouble from the operating system: every source gets
    its turn; afterwards each JSON file and each observation file of each source is what the
    bytes of that source call for, under the controls of the INI files; and nothing outside the
    work folders has changed. *)
Theorem C56_run : forall kord defaults user ctl mode f jobs f' l' outs x,
  main_controls kord defaults user = Ok (Some ctl) -> controls_ok (box_margo ctl) -> In mode modes ->
  (forall src lk, In (src, lk) jobs -> lucky lk) -> independent mode (map fst jobs) ->
  (forall src, In src (map fst jobs) -> f (work_folder src mode) = None /\ exists content, f src = Some content /\ bytes_ok content) ->
  main kord defaults user mode f jobs = (f', l', (outs, x)) ->
  x = None /\ length outs = length jobs /\
  (forall p, (forall src, In src (map fst jobs) -> inside (work_folder src mode) p = false) -> f' p = f p) /\
  forall src content segs rest, In src (map fst jobs) -> f src = Some content -> scans content segs rest ->
    let objs := objects mode (frames_of segs) in
    (forall num sub name, json_place num sub name ->
       let file := work_folder src mode ++ [sub; name] in
       match numbered mode num objs with
       | [] => f' file = None
       | x :: r => exists text, f' file = Some text /\ JsonSpec.read_json text = Some (document (box_json ctl) x r)
       end) /\
    exists hist, history_of (observations mode objs) hist /\
      forall g p sgn t, known g sgn ->
        let file := work_folder src mode ++ [gnss_dir g; obs_file g p sgn t] in
        match filter (goes_here (box_margo ctl) g p sgn t) hist with
        | [] => f' file = None
        | _ => exists text, f' file = Some text /\ file_of (box_margo ctl) g p sgn t hist text
        end.
Proof.
  intros kord defaults user ctl mode f jobs f' l' outs x MC C M LK IND H0 R. unfold main in R. rewrite MC in R.
  assert (X : x = None).
  { apply (loop_lucky mode ctl (map fst jobs) f M C IND H0 jobs f f' l' outs x (fun y I => I) LK); [auto|exact R]. }
  subst x. split; [reflexivity|]. destruct (loop_idle _ _ _ _ _ _ _ R) as (-> & L). split; [exact L|]. split.
  { intros p N. apply (loop_outside _ _ _ _ _ _ _ p R). intros y k I. apply N. apply in_map_iff. exists (y, k). auto. }
  intros src content segs rest Is FS S objs. destruct (last_job src jobs Is) as (before & lk & after & -> & NA).
  assert (INb : forall y k, In (y, k) before -> In y (map fst (before ++ (src, lk) :: after))) by (intros y k I; apply in_map_iff; exists (y, k); split; [reflexivity|apply in_or_app; now left]).
  assert (INa : forall y k, In (y, k) after -> In y (map fst (before ++ (src, lk) :: after))) by (intros y k I; apply in_map_iff; exists (y, k); split; [reflexivity|apply in_or_app; right; now right]).
  assert (N : exists o, nth_error outs (length before) = Some o).
  { destruct (nth_error outs (length before)) eqn:E; [eauto|]. apply nth_error_None in E. rewrite app_length in L. cbn [length] in L. lia. }
  destruct N as (o & N). destruct (loop_at _ _ _ _ _ _ _ _ _ _ _ _ R N) as (f1 & outs1 & f2 & ox & B & O & A).
  assert (NI : inside (work_folder src mode) src = false) by (now apply (IND src src)).
  destruct (H0 src Is) as (FF & content' & FS' & BC). assert (content' = content) as -> by congruence. clear FS'.
  assert (F1s : f1 src = Some content).
  { rewrite (loop_outside _ _ _ _ _ _ _ src B); [exact FS|]. intros y k I. apply (IND y src); [exact (INb y k I)|exact Is]. }
  assert (F1f : f1 (work_folder src mode) = None).
  { rewrite (loop_outside _ _ _ _ _ _ _ _ B); [exact FF|]. intros y k I. destruct (IND y src (INb y k I) Is) as ([->|(_ & Q & _)] & _); [apply inside_irrefl|exact Q]. }
  assert (Lk : lucky lk) by (apply (LK src); apply in_or_app; right; now left).
  destruct (one_lucky mode ctl lk f1 src content M C Lk F1f NI F1s BC) as (f1' & st & O' & fc & CF & SAME).
  assert (f1' = f2) as -> by congruence.
  assert (FIN : forall a b, f' (work_folder src mode ++ [a; b]) = fc (work_folder src mode ++ [a; b])).
  { intros a b. rewrite (loop_outside _ _ _ _ _ _ _ _ A).
    - apply SAME. intros E. apply app_inv_head in E. discriminate.
    - intros y k I. destruct (IND y src (INa y k I) Is) as ([->|(Q1 & Q2 & Q3)] & _).
      + exfalso. apply NA. apply in_map_iff. exists (src, k). auto.
      + destruct (inside (work_folder y mode) (work_folder src mode ++ [a; b])) eqn:IY; [|reflexivity].
        assert (IS : inside (work_folder src mode) (work_folder src mode ++ [a; b]) = true) by (apply inside_spec; exists [a; b]; split; [discriminate|reflexivity]).
        destruct (inside_two _ _ _ IY IS) as [Q|[Q|Q]]; congruence. }
  assert (EN : forall n p, lk_os lk n p = true) by apply Lk. assert (W : walk (lk_ord lk)) by apply Lk.
  split.
  - intros num sub name PL. pose proof (C47_json_product (lk_ord lk) mode ctl (fun _ => lk_os lk) f1 src content segs rest fc st num sub name M W C EN NI F1s BC S CF PL) as Q.
    cbv zeta in *. rewrite FIN. exact Q.
  - destruct (C47_obs_product (lk_ord lk) mode ctl (fun _ => lk_os lk) f1 src content segs rest fc st M W C EN NI F1s BC S CF) as (hist & HM & Q).
    exists hist. split; [exact HM|]. intros g p sgn t K. specialize (Q g p sgn t K). cbv zeta in *. rewrite FIN. exact Q.
Qed.
Print Assumptions C56_run.

(** In the work folder of a source there is, afterwards, its log and its products and nothing
    else: nothing of earlier runs. *)
Theorem C56_nothing_else : forall kord defaults user ctl mode f jobs f' l' outs x,
  main_controls kord defaults user = Ok (Some ctl) -> controls_ok (box_margo ctl) -> In mode modes ->
  (forall src lk, In (src, lk) jobs -> lucky lk) -> independent mode (map fst jobs) ->
  (forall src, In src (map fst jobs) -> f (work_folder src mode) = None /\ exists content, f src = Some content /\ bytes_ok content) ->
  main kord defaults user mode f jobs = (f', l', (outs, x)) ->
  forall src content segs rest p text, In src (map fst jobs) -> f src = Some content -> scans content segs rest ->
    inside (work_folder src mode) p = true -> f' p = Some text ->
    p = work_folder src mode ++ [log_file_name src] \/
    exists a b, p = work_folder src mode ++ [a; b] /\
      ((exists num sub name, json_place num sub name /\ (a ++ "/" ++ b)%string = (sub ++ "/" ++ name)%string /\
          numbered mode num (objects mode (frames_of segs)) <> []) \/
       (exists g par sgn t, known g sgn /\ (a ++ "/" ++ b)%string = obs_path g par sgn t)).
Proof.
  intros kord defaults user ctl mode f jobs f' l' outs x MC C M LK IND H0 R src content segs rest p text Is FS S Ip FP. unfold main in R. rewrite MC in R.
  assert (X : x = None).
  { apply (loop_lucky mode ctl (map fst jobs) f M C IND H0 jobs f f' l' outs x (fun y I => I) LK); [auto|exact R]. }
  subst x. destruct (loop_idle _ _ _ _ _ _ _ R) as (-> & L). destruct (last_job src jobs Is) as (before & lk & after & -> & NA).
  assert (INb : forall y k, In (y, k) before -> In y (map fst (before ++ (src, lk) :: after))) by (intros y k I; apply in_map_iff; exists (y, k); split; [reflexivity|apply in_or_app; now left]).
  assert (INa : forall y k, In (y, k) after -> In y (map fst (before ++ (src, lk) :: after))) by (intros y k I; apply in_map_iff; exists (y, k); split; [reflexivity|apply in_or_app; right; now right]).
  assert (N : exists o, nth_error outs (length before) = Some o).
  { destruct (nth_error outs (length before)) eqn:E; [eauto|]. apply nth_error_None in E. rewrite app_length in L. cbn [length] in L. lia. }
  destruct N as (o & N). destruct (loop_at _ _ _ _ _ _ _ _ _ _ _ _ R N) as (f1 & outs1 & f2 & ox & B & O & A).
  assert (NI : inside (work_folder src mode) src = false) by (now apply (IND src src)).
  destruct (H0 src Is) as (FF & content' & FS' & BC). assert (content' = content) as -> by congruence. clear FS'.
  assert (F1s : f1 src = Some content).
  { rewrite (loop_outside _ _ _ _ _ _ _ src B); [exact FS|]. intros y k I. apply (IND y src); [exact (INb y k I)|exact Is]. }
  assert (F1f : f1 (work_folder src mode) = None).
  { rewrite (loop_outside _ _ _ _ _ _ _ _ B); [exact FF|]. intros y k I. destruct (IND y src (INb y k I) Is) as ([->|(_ & Q & _)] & _); [apply inside_irrefl|exact Q]. }
  assert (Lk : lucky lk) by (apply (LK src); apply in_or_app; right; now left).
  destruct (one_lucky mode ctl lk f1 src content M C Lk F1f NI F1s BC) as (f1' & st & O' & fc & CF & SAME).
  assert (f1' = f2) as -> by congruence.
  destruct (list_eq_dec string_dec p (log_path mode src)) as [E|NL]; [left; exact E|right].
  assert (FIN : f' p = fc p).
  { rewrite (loop_outside _ _ _ _ _ _ _ _ A); [now apply SAME|]. intros y k I. destruct (IND y src (INa y k I) Is) as ([->|(Q1 & Q2 & Q3)] & _).
    - exfalso. apply NA. apply in_map_iff. exists (src, k). auto.
    - destruct (inside (work_folder y mode) p) eqn:IY; [|reflexivity]. destruct (inside_two _ _ _ IY Ip) as [Q|[Q|Q]]; congruence. }
  assert (EN : forall n q, lk_os lk n q = true) by apply Lk. assert (W : walk (lk_ord lk)) by apply Lk. rewrite FIN in FP.
  exact (C47_nothing_else (lk_ord lk) mode ctl (fun _ => lk_os lk) f1 src content segs rest fc st p text M W C EN NI F1s BC S CF Ip FP).
Qed.
Print Assumptions C56_nothing_else.

(** Two sources, one given twice, with the controls of defaults.ini. *)
Example C56_nonvacuous :
  let jobs := [(["d"; "a.rtcm3"], sample_luck []); (["d"; "b.rtcm3"], sample_luck []); (["d"; "a.rtcm3"], sample_luck [])] in
  lucky (sample_luck []) /\ independent "JARGO" (map fst jobs) /\
  (exists ctl, main_controls ident (Parsed default_ini) None = Ok (Some ctl) /\ controls_ok (box_margo ctl)) /\
  (let '(f', _, (outs, x)) := main ident (Parsed default_ini) None "JARGO" sample_fs jobs in
   outs = [Finished WithoutErrors; Finished WithoutErrors; Finished WithoutErrors] /\ x = None /\
   map (present f') [["d"; "a-JARGO"; "BASE"; "RefPoint-1005.json"]; ["d"; "b-JARGO"; "BASE"; "TextStr-1029.json"]; ["d"; "b-JARGO"; "BASE"; "RefPoint-1005.json"]] = [true; true; false]).
Proof.
  cbv zeta. split; [|split; [|split]].
  - unfold lucky. cbn. repeat split; try discriminate. intros l. apply Permutation_refl.
  - intros a b A B. cbn in A, B.
    assert (X : forall a b, In a [["d"; "a.rtcm3"]; ["d"; "b.rtcm3"]; ["d"; "a.rtcm3"]] -> In b [["d"; "a.rtcm3"]; ["d"; "b.rtcm3"]; ["d"; "a.rtcm3"]] ->
       (a = b \/ separate (work_folder a "JARGO") (work_folder b "JARGO")) /\ inside (work_folder a "JARGO") b = false).
    { clear. intros a b A B. cbn in A, B.
      destruct A as [<-|[<-|[<-|[]]]], B as [<-|[<-|[<-|[]]]]; (split; [first [left; reflexivity|right; split; [vm_compute; discriminate|split; reflexivity]]|reflexivity]). }
    exact (X a b A B).
  - destruct (main_controls ident (Parsed default_ini) None) as [[ctl|]|] eqn:E; [|vm_compute in E; discriminate|vm_compute in E; discriminate].
    exists ctl. split; [reflexivity|]. vm_compute in E.
    assert (Q : box_margo ctl = {| half_cycle_enable := false; lock_time_enable := false; gps_utc_shift := 18; glo_lit_tab := glo_lit_tab default_margo |}) by (inversion E; reflexivity).
    rewrite Q. exact PropertiesMargo.default_controls_ok.
  - vm_compute. repeat split.
Qed.
