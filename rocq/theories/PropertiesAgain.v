(** * PropertiesAgain: C73 - running the command again repairs and repeats. *)
From Coq Require Import Permutation Lia.
From Verif Require Import PyBase PyDict PyVal FramerModel MsmModel DecoderModel JsonModel MargoModel PrinterModel PrinterSpec
  MainModel MainSpec PropertiesPrinter PropertiesMain PropertiesFiles ControlsModel ControlsSpec PropertiesControls SessionModel SessionSpec SessionProofs
  TestData PropertiesSession CrashModel PropertiesCrash.
Local Open Scope string_scope.
Local Open Scope list_scope.
Local Open Scope Z_scope.

(** What earlier commands with the same format and with (some of) the same sources may have done
    to the disk: any number of runs, with any INI files and whatever the operating system did to
    them, to the end, broken off by an exception or killed at any moment. *)
Inductive worked (mode : string) (srcs : list path) : fs -> fs -> Prop :=
| worked_not f : worked mode srcs f f
| worked_run f f1 g kord defaults user jobs l ox : incl (map fst jobs) srcs ->
    main kord defaults user mode f jobs = (f1, l, ox) -> worked mode srcs f1 g -> worked mode srcs f g
| worked_killed f f1 g kord defaults user jobs : incl (map fst jobs) srcs ->
    crashed_main kord defaults user mode f jobs f1 -> worked mode srcs f1 g -> worked mode srcs f g.

(** ** Disks that differ in work folders only *)
Section Same.
Variable mode : string.
Definition same (D : list path) (f g : fs) : Prop :=
  forall p, (forall s, In s D -> inside (work_folder s mode) p = false) -> f p = g p.

Lemma same_set D f g file c : same D f g -> same D (fs_set f file c) (fs_set g file c).
Proof. intros S p N. unfold fs_set. destruct (path_eqb p file); [reflexivity|exact (S p N)]. Qed.
Lemma same_append D files t f g : same D f g -> same D (append_to files t f) (append_to files t g).
Proof. intros S p N. unfold append_to. rewrite (S p N). reflexivity. Qed.
Lemma same_log D l m f g : same D f g -> same D (log l m f) (log l m g).
Proof.
  intros S. unfold log. destruct (lg_ready l); [|exact S]. destruct (to_file (fst m)); [|exact S].
  revert f g S. induction (lg_files l) as [|x r IH]; intros f g S; [exact S|]. cbn [fold_left]. apply IH. now apply same_append.
Qed.
Lemma same_log_all D l ms : forall f g, same D f g -> same D (log_all l ms f) (log_all l ms g).
Proof. unfold log_all. induction ms as [|m ms IH]; intros f g S; [exact S|]. cbn [fold_left]. apply IH. now apply same_log. Qed.
Lemma same_put D fld files f g : same D f g -> same D (put fld files f) (put fld files g).
Proof. intros S p N. unfold put. rewrite (S p N). reflexivity. Qed.
Lemma same_rmtree D src f g : same (src :: D) f g -> same D (rmtree (work_folder src mode) f) (rmtree (work_folder src mode) g).
Proof.
  intros S p N. unfold rmtree. destruct (inside (work_folder src mode) p) eqn:E; [reflexivity|]. apply S. intros s [<-|I]; [exact E|exact (N s I)].
Qed.

Lemma one_same ctl lk D f g l src : lk_rmtree lk = None -> f (work_folder src mode) = None -> g (work_folder src mode) = None ->
  (forall s, In s (src :: D) -> inside (work_folder s mode) src = false) -> same (src :: D) f g ->
  let '(f1, l1, r1) := convert_one mode ctl lk f l src in
  let '(g1, l2, r2) := convert_one mode ctl lk g l src in
  r1 = r2 /\ l1 = l2 /\ same D f1 g1.
Proof.
  intros RM Ff Fg NI S. unfold convert_one, create_work_folder. rewrite RM, Ff, Fg. pose proof (same_rmtree D src f g S) as SR.
  set (F := rmtree (work_folder src mode) f) in *. set (G := rmtree (work_folder src mode) g) in *. clearbody F G.
  destruct (lk_mkdir lk); [|auto].
  assert (IN : exists F' G' l' r', init_logger lk F l (log_path mode src) = (F', l', r') /\ init_logger lk G l (log_path mode src) = (G', l', r') /\ same D F' G').
  { unfold init_logger. destruct (lk_log lk) as [[]|].
    - destruct (init_2CH l (log_path mode src)) as [l' r']. eexists _, _, _, _. split; [reflexivity|]. split; [reflexivity|]. now apply same_set.
    - eexists _, _, _, _. split; [reflexivity|]. split; [reflexivity|]. exact SR.
    - eexists _, _, _, _. split; [reflexivity|]. split; [reflexivity|]. now apply same_set. }
  destruct IN as (F' & G' & l' & r' & E1 & E2 & S'). rewrite E1, E2. clear E1 E2 SR. destruct r' as [u|e]; [|auto].
  destruct ctl as [ctl|]; [|split; [reflexivity|split; [reflexivity|now apply same_log]]].
  destruct (factory mode true (lk_os lk) ctl) as [[c|]|e].
  - rewrite (S' src (fun s I => NI s (or_intror I))).
    destruct (decode_rtcm_file _ _ _ _) as [s [b|e]].
    + split; [reflexivity|]. split; [reflexivity|]. now apply same_log, same_log_all, same_put.
    + split; [reflexivity|]. split; [reflexivity|]. now apply same_log_all, same_put.
  - split; [reflexivity|]. split; [reflexivity|]. now apply same_log, same_log_all.
  - split; [reflexivity|]. split; [reflexivity|]. now apply same_log_all.
Qed.

Lemma inside_self d : inside d d = false.
Proof. unfold inside. rewrite Nat.ltb_irrefl. apply andb_false_r. Qed.
Lemma folder_outside all a b : independent mode all -> In a all -> In b all -> inside (work_folder a mode) (work_folder b mode) = false.
Proof. intros I A B. destruct (I a b A B) as ([<-|(_ & X & _)] & _); [apply inside_self|exact X]. Qed.

Lemma loop_same ctl : forall jobs f g, independent mode (map fst jobs) ->
  (forall s k, In (s, k) jobs -> lk_rmtree k = None /\ f (work_folder s mode) = None) -> same (map fst jobs) f g ->
  let '(f1, l1, (o1, x1)) := convert_loop mode ctl f logger_init jobs in
  let '(g1, l2, (o2, x2)) := convert_loop mode ctl g logger_init jobs in
  o1 = o2 /\ x1 = x2 /\ l1 = l2 /\ (x1 = None -> forall p, f1 p = g1 p).
Proof.
  induction jobs as [|[src lk] jobs IH]; intros f g IND H S; cbn [convert_loop].
  { repeat split; auto. intros _ p. apply S. intros s []. }
  destruct (H src lk (or_introl eq_refl)) as (RM & FF). cbn [map fst] in IND, S.
  assert (GG : g (work_folder src mode) = None).
  { rewrite <- FF. symmetry. apply S. intros s I. apply (folder_outside _ s src IND I). now left. }
  pose proof (one_same ctl lk (map fst jobs) f g logger_init src RM FF GG) as O.
  assert (NI : forall s, In s (src :: map fst jobs) -> inside (work_folder s mode) src = false).
  { intros s I. exact (proj2 (IND s src I (or_introl eq_refl))). }
  specialize (O NI S).
  destruct (convert_one mode ctl lk f logger_init src) as [[f1 l1] [o|e]] eqn:E1;
    destruct (convert_one mode ctl lk g logger_init src) as [[g1 l2] [o'|e']] eqn:E2; destruct O as (R & -> & S1); try discriminate.
  - injection R as <-. rewrite (one_idle _ _ _ _ _ _ _ _ E1). specialize (IH f1 g1).
    assert (IND' : independent mode (map fst jobs)) by (intros x y X Y; apply IND; now right).
    assert (H' : forall s k, In (s, k) jobs -> lk_rmtree k = None /\ f1 (work_folder s mode) = None).
    { intros s k I. destruct (H s k (or_intror I)) as (A & B). split; [exact A|]. rewrite <- B.
      apply (one_outside _ _ _ _ _ _ _ _ _ E1). apply (folder_outside _ src s IND); [now left|right; exact (in_map fst _ _ I)]. }
    specialize (IH IND' H' S1).
    destruct (convert_loop mode ctl f1 logger_init jobs) as [[f2 l3] [o1 x1]]. destruct (convert_loop mode ctl g1 logger_init jobs) as [[g2 l4] [o2 x2]].
    destruct IH as (-> & -> & -> & P). auto.
  - injection R as <-. repeat split; auto. discriminate.
Qed.
End Same.

(** ** Earlier commands change work folders only *)
Lemma crash_outside mode ctl f l jobs g p : crash mode ctl f l jobs g -> l = logger_init ->
  (forall s k, In (s, k) jobs -> inside (work_folder s mode) p = false) -> g p = f p.
Proof.
  assert (CWO : forall lk f src f1 b, create_work_folder mode lk f src = (f1, b) -> inside (work_folder src mode) p = false -> f1 p = f p).
  { intros lk f0 src f1 b E N. unfold create_work_folder in E. destruct (f0 (work_folder src mode)); [congruence|].
    destruct (lk_rmtree lk) as [keep|]; injection E as <- _; unfold rmtree; rewrite N; reflexivity. }
  induction 1 as [f l jobs|f l src lk jobs keep FF|f l src lk jobs f1 k CW LG|f l src lk jobs f1 f2 l2 box c n files m k CW IL BX FA OD|f l src lk jobs f1 l1 o g CO CR IH];
    intros L N; subst l.
  - reflexivity.
  - rewrite (N src lk (or_introl eq_refl)). reflexivity.
  - pose proof (N src lk (or_introl eq_refl)) as NI. unfold fs_set. rewrite (path_eqb_neq _ _ (not_log _ _ _ NI)). exact (CWO _ _ _ _ _ CW NI).
  - pose proof (N src lk (or_introl eq_refl)) as NI. rewrite (path_eqb_neq _ _ (not_log _ _ _ NI)). unfold put. rewrite NI.
    rewrite <- (CWO _ _ _ _ _ CW NI). unfold init_logger in IL. destruct (lk_log lk) as [[]|]; [|congruence|congruence].
    destruct (init_2CH logger_init (log_path mode src)) as [l' r']. assert (f2 = fs_set f1 (log_path mode src) welcome) as -> by congruence.
    unfold fs_set. now rewrite (path_eqb_neq _ _ (not_log _ _ _ NI)).
  - rewrite (IH (one_idle _ _ _ _ _ _ _ _ CO)) by (intros s k I; exact (N s k (or_intror I))).
    exact (one_outside _ _ _ _ _ _ _ _ _ CO (N src lk (or_introl eq_refl))).
Qed.

Lemma worked_outside mode srcs f g p : worked mode srcs f g -> (forall s, In s srcs -> inside (work_folder s mode) p = false) -> g p = f p.
Proof.
  intros W N. induction W as [f|f f1 g kord defaults user jobs l ox I M W IH|f f1 g kord defaults user jobs I M W IH]; [reflexivity| |].
  - rewrite IH. unfold main in M. destruct (main_controls kord defaults user) as [ctl|e]; [|congruence].
    apply (loop_outside _ _ _ _ _ _ _ p M). intros y k J. apply N, I. exact (in_map fst _ _ J).
  - rewrite IH. unfold crashed_main in M. destruct (main_controls kord defaults user) as [ctl|e]; [|now rewrite M].
    apply (crash_outside mode ctl f logger_init jobs f1 p M eq_refl). intros y k J. apply N, I. exact (in_map fst _ _ J).
Qed.

(** Whatever earlier commands did - finished, were broken off, were killed - the command gives
    the outcome, and leaves every file of the disk, as if they had never been run. *)
Theorem C73_recovery : forall kord defaults user mode f g jobs,
  independent mode (map fst jobs) ->
  (forall src lk, In (src, lk) jobs -> lk_rmtree lk = None /\ f (work_folder src mode) = None) ->
  worked mode (map fst jobs) f g ->
  let '(f', l, (outs, x)) := main kord defaults user mode f jobs in
  let '(g', l', (outs', x')) := main kord defaults user mode g jobs in
  outs' = outs /\ x' = x /\
  match main_controls kord defaults user with
  | Ok _ => x = None -> forall p, g' p = f' p
  | Err _ => f' = f /\ g' = g
  end.
Proof.
  intros kord defaults user mode f g jobs IND H W. unfold main. destruct (main_controls kord defaults user) as [ctl|e]; [|auto].
  assert (S : same mode (map fst jobs) f g) by (intros p N; symmetry; exact (worked_outside _ _ _ _ _ W N)).
  pose proof (loop_same mode ctl jobs f g IND H S) as L.
  destruct (convert_loop mode ctl f logger_init jobs) as [[f1 l1] [o1 x1]]. destruct (convert_loop mode ctl g logger_init jobs) as [[g1 l2] [o2 x2]].
  destruct L as (-> & -> & _ & P). repeat split. intros X p. symmetry. exact (P X p).
Qed.
Print Assumptions C73_recovery.

(** A command that has run to its end can be repeated: the outcomes are the same and no file
    changes. *)
Theorem C73_again : forall kord defaults user mode f jobs f' l outs,
  independent mode (map fst jobs) ->
  (forall src lk, In (src, lk) jobs -> lk_rmtree lk = None /\ f (work_folder src mode) = None) ->
  main kord defaults user mode f jobs = (f', l, (outs, None)) ->
  exists f'', main kord defaults user mode f' jobs = (f'', l, (outs, None)) /\ forall p, f'' p = f' p.
Proof.
  intros kord defaults user mode f jobs f' l outs IND H M.
  pose proof (C73_recovery kord defaults user mode f f' jobs IND H) as R. rewrite M in R.
  specialize (R (worked_run _ _ _ _ _ _ _ _ _ _ _ (incl_refl _) M (worked_not _ _ _))).
  unfold main in *. destruct (main_controls kord defaults user) as [ctl|e]; [|congruence].
  assert (EL : l = logger_init) by exact (proj1 (loop_idle _ _ _ _ _ _ _ M)).
  destruct (convert_loop mode ctl f' logger_init jobs) as [[g1 l2] [o2 x2]] eqn:E. destruct R as (-> & -> & P).
  exists g1. split; [|exact (P eq_refl)]. destruct (loop_idle _ _ _ _ _ _ _ E) as (-> & _). now rewrite EL.
Qed.
Print Assumptions C73_again.

(** A disk on which an earlier command was killed while it made the log; the command of three
    sources (one interrupted, one without a log) run on it and run twice. *)
Definition killed_fs : fs := fs_set (rmtree ["d"; "a-JSON"] sample_fs) ["d"; "a-JSON"; "a-log.txt"] (firstn 9 welcome).
Definition sample_main (f : fs) : fs * logger * (list outcome * option exn) := main ident (Parsed default_ini) None "JSON" f sample_jobs.
Definition looked : list path :=
  [["d"; "a.rtcm3"]; ["d"; "a-JSON"; "old"]; ["d"; "a-JSON"; "a-log.txt"]; ["d"; "a-JSON"; "BASE"; "RefPoint-1005.json"];
   ["d"; "b-JSON"; "b-log.txt"]; ["d"; "c-JSON"; "BASE"; "TextStr-1029.json"]].
Example C73_nonvacuous :
  independent "JSON" (map fst sample_jobs) /\
  (forall src lk, In (src, lk) sample_jobs -> lk_rmtree lk = None /\ sample_fs (work_folder src "JSON") = None) /\
  worked "JSON" (map fst sample_jobs) sample_fs killed_fs /\
  map killed_fs looked <> map sample_fs looked /\
  snd (sample_main killed_fs) = ([Finished WithoutErrors; Finished Terminated; Finished WithoutErrors], None) /\
  map (fst (fst (sample_main killed_fs))) looked = map (fst (fst (sample_main sample_fs))) looked /\
  map (fun p => match fst (fst (sample_main killed_fs)) p with Some _ => true | None => false end) looked = [true; false; true; true; true; true].
Proof.
  split.
  { assert (X : forallb (fun x => forallb (fun y =>
       (path_eqb x y || negb (path_eqb (work_folder x "JSON") (work_folder y "JSON")) && negb (inside (work_folder x "JSON") (work_folder y "JSON")) && negb (inside (work_folder y "JSON") (work_folder x "JSON")))
       && negb (inside (work_folder x "JSON") y)) (map fst sample_jobs)) (map fst sample_jobs) = true) by (vm_compute; reflexivity).
    rewrite forallb_forall in X. intros x y Ix Iy. specialize (X x Ix). rewrite forallb_forall in X. specialize (X y Iy).
    apply andb_true_iff in X as (X & Y). split; [|now apply negb_true_iff]. apply orb_true_iff in X as [X|X]; [left; now apply path_eqb_spec|right].
    apply andb_true_iff in X as (X & Z). apply andb_true_iff in X as (X & W). apply negb_true_iff in X, W, Z. split; [|now split].
    intros E. rewrite E, path_eqb_refl in X. discriminate. }
  split; [intros src lk [E|[E|[E|[]]]]; injection E as <- <-; split; reflexivity|].
  split.
  { apply (worked_killed "JSON" _ sample_fs killed_fs killed_fs ident (Parsed default_ini) None [(["d"; "a.rtcm3"], sample_luck [])]).
    - intros x [<-|[]]. now left.
    - exact (proj2 C70_nonvacuous).
    - apply worked_not. }
  split; [vm_compute; discriminate|]. split; [vm_compute; reflexivity|]. split; vm_compute; reflexivity.
Qed.
