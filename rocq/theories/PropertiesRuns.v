(** * PropertiesRuns: C78 and C80 for runs of the program, with the files on the disk. *)
From Coq Require Import Permutation.
From Verif Require Import PyBase PyDict PyFloat PyVal BitsSpec BitsModel MessageSpec FramerModel FramerSpec FramerProofs FramerTheorems PropertiesStream MsmModel MsmSpec
  TestData DecoderModel DecoderSpec DecoderProofs PropertiesDecoder
  JsonModel JsonSpec JsonFileSpec JsonFiles JsonDecoded PropertiesJson MargoModel MargoSpec MargoProofs MargoFiles PropertiesMargo
  PrinterModel PrinterSpec PrinterProofs PropertiesPrinter MainModel MainSpec MainProofs NamesSpec NamesProofs PropertiesMain PropertiesFiles
  ControlsModel ControlsSpec ControlsProofs PropertiesControls SessionModel SessionSpec SessionProofs PropertiesSession PiecesSpec PropertiesPieces PropertiesKinds PropertiesGrowing.
Local Open Scope string_scope.
Local Open Scope list_scope.
Local Open Scope Z_scope.

(** A run of the program on the disk [f] that leaves the disk [f']: the INI files give usable
    controls [ctl], the operating system refuses nothing, the work folders are independent (C42)
    and every source is a readable file. *)
Definition good_run kord defaults user (ctl : boxed_controls) (mode : string) (f : fs) (jobs : list (path * luck)) (f' : fs) : Prop :=
  main_controls kord defaults user = Ok (Some ctl) /\ controls_ok (box_margo ctl) /\ In mode modes /\
  (forall src lk, In (src, lk) jobs -> lucky lk) /\ independent mode (map fst jobs) /\
  (forall src, In src (map fst jobs) -> f (work_folder src mode) = None /\ exists content, f src = Some content /\ bytes_ok content) /\
  exists l outs x, main kord defaults user mode f jobs = (f', l, (outs, x)).

Lemma run_file kord defaults user ctl mode f jobs f' src content : good_run kord defaults user ctl mode f jobs f' ->
  In src (map fst jobs) -> f src = Some content -> bytes_ok content /\
  exists lk c, factory mode true (lk_os lk) ctl = Ok (Some c) /\ walk (lk_ord lk) /\ (forall n p, lk_os lk n p = true) /\
    forall a b, f' (work_folder src mode ++ [a; b]) =
      sget (output_files (r_world (fst (decode_rtcm_file (lk_ord lk) no_faults (regular_file content) (started c))))) (a ++ "/" ++ b)%string.
Proof.
  intros (MC & C & M & LK & IND & H0 & l' & outs & x & R) Is FS. unfold main in R. rewrite MC in R.
  assert (X : x = None).
  { apply (loop_lucky mode ctl (map fst jobs) f M C IND H0 jobs f f' l' outs x (fun y I => I) LK); [auto|exact R]. }
  subst x. destruct (loop_idle _ _ _ _ _ _ _ R) as (-> & L). destruct (last_job src jobs Is) as (before & lk & after & -> & NA).
  assert (INb : forall y k, In (y, k) before -> In y (map fst (before ++ (src, lk) :: after))) by (intros y k I; apply in_map_iff; exists (y, k); split; [reflexivity|apply in_or_app; now left]).
  assert (INa : forall y k, In (y, k) after -> In y (map fst (before ++ (src, lk) :: after))) by (intros y k I; apply in_map_iff; exists (y, k); split; [reflexivity|apply in_or_app; right; now right]).
  assert (N : exists o, nth_error outs (length before) = Some o).
  { destruct (nth_error outs (length before)) eqn:E; [eauto|]. apply nth_error_None in E. rewrite app_length in L. cbn [length] in L. lia. }
  destruct N as (o & N). destruct (loop_at _ _ _ _ _ _ _ _ _ _ _ _ R N) as (f1 & outs1 & f2 & ox & B & O & A).
  assert (NI : inside (work_folder src mode) src = false) by (now apply (IND src src)).
  destruct (H0 src Is) as (FF & content' & FS' & BC). assert (content' = content) as -> by congruence. clear FS'.
  assert (F1s : f1 src = Some content).
  { rewrite (loop_outside _ _ _ _ _ _ _ src B); [exact FS|]. intros y k I. apply (IND y src); [exact (INb y k I)|exact Is]. }
  assert (F1f : f1 (work_folder src mode) = None).
  { rewrite (loop_outside _ _ _ _ _ _ _ _ B); [exact FF|]. intros y k I. destruct (IND y src (INb y k I) Is) as ([->|(_ & Q & _)] & _); [apply inside_irrefl|exact Q]. }
  assert (Lk : lucky lk) by (apply (LK src); apply in_or_app; right; now left).
  destruct (one_lucky mode ctl lk f1 src content M C Lk F1f NI F1s BC) as (f1' & st & O' & fc & CF & SAME).
  assert (f1' = f2) as -> by congruence.
  assert (IS : forall a b, inside (work_folder src mode) (work_folder src mode ++ [a; b]) = true) by (intros a b; apply inside_spec; exists [a; b]; split; [discriminate|reflexivity]).
  assert (FIN : forall a b, f' (work_folder src mode ++ [a; b]) = fc (work_folder src mode ++ [a; b])).
  { intros a b. rewrite (loop_outside _ _ _ _ _ _ _ _ A).
    - apply SAME. intros E. apply app_inv_head in E. discriminate.
    - intros y k I. destruct (IND y src (INa y k I) Is) as ([->|(Q1 & Q2 & Q3)] & _).
      + exfalso. apply NA. apply in_map_iff. exists (src, k). auto.
      + destruct (inside (work_folder y mode) (work_folder src mode ++ [a; b])) eqn:IY; [|reflexivity].
        destruct (inside_two _ _ _ IY (IS a b)) as [Q|[Q|Q]]; congruence. }
  split; [exact BC|]. unfold convert_file in CF. rewrite F1f in CF.
  destruct (factory mode true (lk_os lk) ctl) as [[c|]|] eqn:FA; [|congruence|congruence].
  exists lk, c. split; [exact FA|]. split; [apply Lk|]. split; [apply Lk|]. intros a b. rewrite FIN.
  unfold rmtree at 1 in CF. rewrite NI, F1s in CF.
  destruct (decode_rtcm_file (lk_ord lk) no_faults (regular_file content) (started c)) as [s r]. apply pair_equal_spec in CF as (<- & _).
  cbn [fst]. unfold put, rmtree. rewrite (IS a b). rewrite skipn_app, skipn_all, Nat.sub_diag. cbn [skipn app].
  now destruct (sget _ _).
Qed.

(** Two runs, at different times and on different disks, perhaps with other sources and in another
    order of sub-printers, one with the source [src] and one with the source [src'].  A file of the
    work folder depends only on the frames with its own message number. *)
Theorem C78_runs : forall kord defaults user ctl mode f jobs f' g jobs' g' src src' a b segs segs' rest rest',
  good_run kord defaults user ctl mode f jobs f' -> good_run kord defaults user ctl mode g jobs' g' ->
  In src (map fst jobs) -> f src = Some a -> scans a segs rest ->
  In src' (map fst jobs') -> g src' = Some b -> scans b segs' rest' ->
  let same num := with_number num (frames_of segs) = with_number num (frames_of segs') in
  (forall num sub name, json_place num sub name -> same num ->
     f' (work_folder src mode ++ [sub; name]) = g' (work_folder src' mode ++ [sub; name])) /\
  (forall n p sgn t, known n sgn -> same (msm_number n t) ->
     f' (work_folder src mode ++ [gnss_dir n; obs_file n p sgn t]) = g' (work_folder src' mode ++ [gnss_dir n; obs_file n p sgn t])).
Proof.
  intros kord defaults user ctl mode f jobs f' g jobs' g' src src' a b segs segs' rest rest' RF RG IF FA SA IG GB SB same.
  destruct (run_file _ _ _ _ _ _ _ _ _ _ RF IF FA) as (BA & lk & c & F & O & EN & QF).
  destruct (run_file _ _ _ _ _ _ _ _ _ _ RG IG GB) as (BB & lk' & c' & F' & O' & EN' & QG).
  assert (C : controls_ok (box_margo ctl)) by apply RF.
  destruct (files_by_kind mode _ ctl c _ a segs rest F O C EN BA SA) as (JA & OA & _).
  destruct (files_by_kind mode _ ctl c' _ b segs' rest' F' O' C EN' BB SB) as (JB & OB & _).
  unfold json_path in JA, JB. unfold obs_path in OA, OB. split.
  - intros num sub name PL S. destruct (place_spec _ _ _ PL) as (e & E & <- & <-). rewrite QF, QG.
    rewrite (JA num e E), (JB num e E), S. reflexivity.
  - intros n p sgn t K S. destruct (header_ok (box_margo ctl) n p sgn t C K) as (h1 & h2 & HH & _). rewrite QF, QG.
    rewrite (OA n p sgn t h1 h2 K HH), (OB n p sgn t h1 h2 K HH), S. reflexivity.
Qed.
Print Assumptions C78_runs.

(** A recording is converted, grows, and is converted again. *)
Theorem C80_runs : forall kord defaults user ctl mode f jobs f' g jobs' g' src src' a b,
  good_run kord defaults user ctl mode f jobs f' -> good_run kord defaults user ctl mode g jobs' g' ->
  In src (map fst jobs) -> f src = Some a -> In src' (map fst jobs') -> g src' = Some (a ++ b) ->
  (forall n p sgn t, known n sgn -> let file := [gnss_dir n; obs_file n p sgn t] in
     grown (f' (work_folder src mode ++ file)) (g' (work_folder src' mode ++ file))) /\
  (forall num sub name, json_place num sub name -> let file := [sub; name] in
     grown_json (f' (work_folder src mode ++ file)) (g' (work_folder src' mode ++ file))).
Proof.
  intros kord defaults user ctl mode f jobs f' g jobs' g' src src' a b RF RG IF FA IG GB.
  destruct (run_file _ _ _ _ _ _ _ _ _ _ RF IF FA) as (BA & lk & c & F & O & EN & QF).
  destruct (run_file _ _ _ _ _ _ _ _ _ _ RG IG GB) as (B & lk' & c' & F' & O' & EN' & QG).
  assert (C : controls_ok (box_margo ctl)) by apply RF.
  pose proof B as B'. apply bytes_ok_app in B' as (_ & BB).
  destruct (scans_exists a BA) as (segsa & rest & SA).
  assert (BR : bytes_ok (rest ++ b)).
  { apply bytes_ok_app. split; [|exact BB]. pose proof (scans_bytes _ _ _ SA) as E. rewrite E in BA. apply bytes_ok_app in BA. tauto. }
  destruct (scans_exists (rest ++ b) BR) as (segsb & rest' & SB).
  assert (SAB : scans (a ++ b) (segsa ++ segsb) rest') by (eapply scans_app; [exact SA|exact SB]).
  destruct (files_by_kind mode _ ctl c _ a _ _ F O C EN BA SA) as (JA & OA & _).
  destruct (files_by_kind mode _ ctl c' _ (a ++ b) _ _ F' O' C EN' B SAB) as (JB & OB & _).
  rewrite frames_of_app in JB, OB. unfold json_path in JA, JB. unfold obs_path in OA, OB. split.
  - intros n p sgn t K file. destruct (header_ok (box_margo ctl) n p sgn t C K) as (h1 & h2 & HH & _). unfold file. rewrite QF, QG.
    rewrite (OA n p sgn t h1 h2 K HH), (OB n p sgn t h1 h2 K HH), with_number_app, objects_app. unfold observations. rewrite filter_app, flat_map_app.
    apply extend_grown.
  - intros num sub name PL file. destruct (place_spec _ _ _ PL) as (e & E & <- & <-). unfold file. rewrite QF, QG.
    rewrite (JA num e E), (JB num e E), with_number_app, objects_app. unfold numbered. rewrite filter_app. apply json_grown.
Qed.
Print Assumptions C80_runs.

(** The texts of the products do not depend on the circumstances of the conversion. *)
Lemma same_text mode env env' ctl c c' ord ord' content : factory mode true env ctl = Ok (Some c) -> factory mode true env' ctl = Ok (Some c') ->
  walk ord -> walk ord' -> controls_ok (box_margo ctl) -> (forall n p, env n p = true) -> (forall n p, env' n p = true) -> bytes_ok content ->
  let file o c path := sget (output_files (r_world (fst (decode_rtcm_file o no_faults (regular_file content) (started c))))) path in
  (forall num sub name, json_place num sub name -> file ord c (sub ++ "/" ++ name)%string = file ord' c' (sub ++ "/" ++ name)%string) /\
  (forall g p sgn t, known g sgn -> file ord c (obs_path g p sgn t) = file ord' c' (obs_path g p sgn t)).
Proof.
  intros F F' O O' C EN EN' B file. destruct (scans_exists content B) as (segs & rest & S).
  destruct (files_by_kind mode _ ctl c _ content segs rest F O C EN B S) as (JA & OA & _).
  destruct (files_by_kind mode _ ctl c' _ content segs rest F' O' C EN' B S) as (JB & OB & _). split.
  - intros num sub name PL. destruct (place_spec _ _ _ PL) as (e & E & <- & <-). exact (eq_trans (JA num e E) (eq_sym (JB num e E))).
  - intros g p sgn t K. destruct (header_ok (box_margo ctl) g p sgn t C K) as (h1 & h2 & HH & _).
    exact (eq_trans (OA g p sgn t h1 h2 K HH) (eq_sym (OB g p sgn t h1 h2 K HH))).
Qed.

(** A recording that is cut between two messages, its parts, and the whole, each converted in
    some run of the program. *)
Theorem C72_runs : forall kord defaults user ctl mode f1 jobs1 f1' f2 jobs2 f2' f3 jobs3 f3' src1 src2 src3 a b segs,
  good_run kord defaults user ctl mode f1 jobs1 f1' -> good_run kord defaults user ctl mode f2 jobs2 f2' -> good_run kord defaults user ctl mode f3 jobs3 f3' ->
  In src1 (map fst jobs1) -> f1 src1 = Some a -> In src2 (map fst jobs2) -> f2 src2 = Some b -> In src3 (map fst jobs3) -> f3 src3 = Some (a ++ b) ->
  scans a segs [] ->
  (forall g p sgn t, known g sgn -> let file := [gnss_dir g; obs_file g p sgn t] in
     joined_obs (box_margo ctl) g p sgn (f1' (work_folder src1 mode ++ file)) (f2' (work_folder src2 mode ++ file)) (f3' (work_folder src3 mode ++ file))) /\
  (forall num sub name, json_place num sub name -> let file := [sub; name] in
     joined_text (f1' (work_folder src1 mode ++ file)) (f2' (work_folder src2 mode ++ file)) (f3' (work_folder src3 mode ++ file))).
Proof.
  intros kord defaults user ctl mode f1 jobs1 f1' f2 jobs2 f2' f3 jobs3 f3' src1 src2 src3 a b segs R1 R2 R3 I1 E1 I2 E2 I3 E3 S.
  destruct (run_file _ _ _ _ _ _ _ _ _ _ R1 I1 E1) as (B1 & lk1 & c1 & F1 & O1 & EN1 & Q1).
  destruct (run_file _ _ _ _ _ _ _ _ _ _ R2 I2 E2) as (B2 & lk2 & c2 & F2 & O2 & EN2 & Q2).
  destruct (run_file _ _ _ _ _ _ _ _ _ _ R3 I3 E3) as (B3 & lk3 & c3 & F3 & O3 & EN3 & Q3).
  assert (C : controls_ok (box_margo ctl)) by apply R1.
  destruct (same_text _ _ _ _ _ _ _ _ _ F2 F1 O2 O1 C EN2 EN1 B2) as (J2 & G2).
  destruct (same_text _ _ _ _ _ _ _ _ _ F3 F1 O3 O1 C EN3 EN1 B3) as (J3 & G3). split.
  - intros g p sgn t K file. specialize (G2 g p sgn t K). specialize (G3 g p sgn t K).
    pose proof (proj1 (proj2 (C72_parts mode _ ctl c1 _ a b segs F1 O1 C EN1 B1 B2 S)) g p sgn t K) as J. cbv beta zeta in J, G2, G3. rewrite <- G2, <- G3 in J.
    unfold file. rewrite Q1, Q2, Q3. exact J.
  - intros num sub name PL file. specialize (J2 num sub name PL). specialize (J3 num sub name PL).
    pose proof (C72_json_text mode _ ctl c1 _ a b segs F1 O1 C EN1 B1 B2 S num sub name PL) as J. cbv beta zeta in J, J2, J3. rewrite <- J2, <- J3 in J.
    unfold file. rewrite Q1, Q2, Q3. exact J.
Qed.
Print Assumptions C72_runs.

(** One source, converted with the first message only and, on the disk that this run leaves, after a
    second message has been recorded. *)
Definition src_a : path := ["d"; "a.rtcm3"].
Definition early : fs := files_of [(src_a, sample_1005)].
Definition late (f' : fs) : fs := fun p => if path_eqb p src_a then Some (sample_1005 ++ sample_1029) else f' p.
Definition jobs_a : list (path * luck) := [(src_a, sample_luck [])].
Lemma late_other f' p : p <> src_a -> late f' p = f' p.
Proof. intros N. unfold late. destruct (path_eqb p src_a) eqn:E; [apply path_eqb_spec in E; contradiction|reflexivity]. Qed.
Example C80_runs_nonvacuous : exists ctl f' g',
  good_run ident (Parsed default_ini) None ctl "JARGO" early jobs_a f' /\
  good_run ident (Parsed default_ini) None ctl "JARGO" (late f') jobs_a g' /\
  map (present f') [["d"; "a-JARGO"; "BASE"; "RefPoint-1005.json"]; ["d"; "a-JARGO"; "BASE"; "TextStr-1029.json"]] = [true; false] /\
  map (present g') [["d"; "a-JARGO"; "BASE"; "RefPoint-1005.json"]; ["d"; "a-JARGO"; "BASE"; "TextStr-1029.json"]] = [true; true].
Proof.
  destruct (main_controls ident (Parsed default_ini) None) as [[ctl|]|] eqn:E; [|vm_compute in E; discriminate|vm_compute in E; discriminate].
  exists ctl, (fst (fst (main ident (Parsed default_ini) None "JARGO" early jobs_a))).
  exists (fst (fst (main ident (Parsed default_ini) None "JARGO" (late (fst (fst (main ident (Parsed default_ini) None "JARGO" early jobs_a)))) jobs_a))).
  assert (G : forall f, f ["d"; "a-JARGO"] = None -> (exists content, f src_a = Some content /\ bytes_ok content) ->
            good_run ident (Parsed default_ini) None ctl "JARGO" f jobs_a (fst (fst (main ident (Parsed default_ini) None "JARGO" f jobs_a)))).
  { intros f W K. split; [exact E|]. split.
    { vm_compute in E. assert (Q : box_margo ctl = {| half_cycle_enable := false; lock_time_enable := false; gps_utc_shift := 18; glo_lit_tab := glo_lit_tab default_margo |}) by (inversion E; reflexivity).
      rewrite Q. exact PropertiesMargo.default_controls_ok. }
    split; [vm_compute; tauto|]. split.
    { intros src lk [Q|[]]. injection Q as <- <-. unfold lucky. cbn. repeat split; try discriminate. intros l. apply Permutation_refl. }
    split; [|split].
    { intros a b [<-|[]] [<-|[]]. split; [now left|reflexivity]. }
    { intros src [<-|[]]. split; [exact W|exact K]. }
    destruct (main _ _ _ _ f jobs_a) as [[f2 l] [outs x]]. exists l, outs, x. reflexivity. }
  split; [|split; [|split]].
  - apply G; [reflexivity|]. exists sample_1005. split; [reflexivity|]. repeat (constructor; [split; vm_compute; congruence|]). constructor.
  - apply G; [rewrite late_other by discriminate; vm_compute; reflexivity|]. exists (sample_1005 ++ sample_1029). split; [reflexivity|].
    apply Forall_forall. intros z I.
    assert (Q : forallb (fun z => (0 <=? z) && (z <? 256)) (sample_1005 ++ sample_1029) = true) by (vm_compute; reflexivity).
    rewrite forallb_forall in Q. specialize (Q z I). apply andb_true_iff in Q as (Q1 & Q2). apply Z.leb_le in Q1. apply Z.ltb_lt in Q2. split; assumption.
  - vm_compute. reflexivity.
  - vm_compute. reflexivity.
Qed.
