(** * The log files of a run: C63. *)
From Coq Require Import Permutation.
From Flocq Require Import BinarySingleNaN.
From Verif Require Import PyBase PyDict PyFloat PyVal PyFormat FormatSpec FramerSpec BitsSpec FramerProofs PropertiesStream DecoderModel DecoderSpec DecoderProofs PropertiesDecoder MsmModel MsmSpec
  JsonModel JsonFileSpec JsonFiles JsonDecoded MargoModel MargoSpec MargoFiles PropertiesMargo PrinterModel PrinterSpec PrinterProofs PropertiesPrinter MainModel MainSpec MainProofs PropertiesMain PropertiesFiles
  ControlsModel ControlsSpec SessionModel SessionSpec SessionProofs PropertiesSession SourcesModel SourcesSpec PropertiesSources IniModel IniData ArgsModel ArgsSpec PropertiesArgs ProgramModel ProgramSpec PropertiesProgram
  LogModel LogSpec LogProofs LogFrames LogRun PropertiesLog FullModel FullSpec.
From Verif Require PropertiesControls.
Local Open Scope string_scope.
Local Open Scope list_scope.
Local Open Scope Z_scope.

(** ** Pieces *)
Lemma reads_pieces n : (0 < n)%nat -> forall fuel content, (length content <= fuel)%nat -> in_pieces n content (reads_of fuel n content).
Proof.
  intros Hn. induction fuel as [|k IH]; intros content L.
  - destruct content; [|cbn in L; lia]. split; [reflexivity|]. intros [|i] x E; discriminate.
  - destruct content as [|b content]; [split; [reflexivity|]; intros [|i] x E; discriminate|]. cbn [reads_of].
    destruct (IH (skipn n (b :: content))) as (E & N); [rewrite skipn_length; cbn [length] in *; lia|].
    split; [cbn [concat]; rewrite E; apply firstn_skipn|]. intros [|i] x X; cbn [nth_error] in X.
    + assert (x = firstn n (b :: content)) as -> by congruence. split; [destruct n; [lia|discriminate]|].
      split; [rewrite firstn_length; lia|]. intros LT. cbn [length] in LT.
      destruct (Nat.le_gt_cases n (length (b :: content))) as [G|G]; [rewrite firstn_length; lia|].
      rewrite skipn_all2 in LT by lia. destruct k; cbn in LT; lia.
    + destruct (N i x X) as (A & B & C). split; [exact A|]. split; [exact B|]. intros LT. apply C. cbn [length] in LT. lia.
Qed.

Lemma Forall2_in_l {A B} (R : A -> B -> Prop) l m x : Forall2 R l m -> In x l -> exists y, In y m /\ R x y.
Proof.
  induction 1 as [|a b l m H _ IH]; intros I; [destruct I|]. destruct I as [<-|I]; [exists b; split; [now left|exact H]|].
  destruct (IH I) as (y & Iy & Ry). exists y. split; [now right|exact Ry].
Qed.

(** ** In a world where all files can be created, nothing is logged about printing *)
Lemma printed_quiet path_text error_text assertion mode env ctl frames f o pl :
  Forall valid_frame (frames ++ [f]) -> (forall n p, env n p = true) ->
  answer (map Register (decoders_of mode)) f = Ok (Some o) ->
  LogSpec.printed path_text error_text assertion mode env ctl (objects mode frames) o pl -> pl = [].
Proof.
  intros V EN A H.
  assert (OB : objects mode (frames ++ [f]) = objects mode frames ++ [o]).
  { unfold objects. rewrite flat_map_app. cbn [flat_map]. rewrite A. reflexivity. }
  inversion H as [st rs r FA PS E|hist e fs FA EV OK ND IFF E]; subst.
  - pose proof (all_printed mode env (box_json ctl) (frames ++ [f]) 0 V EN) as AP. rewrite OB, PS in AP. destruct AP as (R & _).
    destruct r as [u|x]; [reflexivity|]. exfalso. unfold refused in R. rewrite filter_app in R. cbn [filter] in R. unfold zlen in R. rewrite app_length in R. cbn [length] in R. lia.
  - destruct fs as [|x fs]; [reflexivity|]. exfalso. destruct (proj1 (IFF x) (or_introl eq_refl)) as (p & sgn & _ & _ & G & RC).
    rewrite C32_all_created in RC.
    + rewrite filter_app in RC. cbn [filter] in RC. rewrite G in RC. destruct (filter _ hist); discriminate.
    + intros e0 I.
      assert (X : forall fam objs k d, In d (delivered_to fam mode env k objs) -> exists n, snd d = env n).
      { clear. intros fam objs. induction objs as [|o objs IH]; intros k d I; [destruct I|]. cbn [delivered_to] in I. apply in_app_or in I.
        destruct I as [I|I]; [|exact (IH _ _ I)]. destruct (same_family _ _); [|destruct I]. destruct I as [<-|[]]. exists k. reflexivity. }
      destruct (Forall2_in_l _ _ _ _ EV I) as (d & Id & (_ & CC)). destruct (X _ _ _ _ Id) as (n & E). rewrite CC, E. apply EN.
Qed.
Lemma told_stories path_text error_text assertion mode env ctl frames ls : (forall n p, env n p = true) -> Forall valid_frame frames ->
  told path_text error_text assertion mode env ctl frames ls -> exists stories, Forall2 (story mode) frames stories /\ ls = concat stories.
Proof.
  intros EN V T. induction T as [|fs ls f l T IH S _|fs ls f l o pl T IH S A P].
  - exists []. split; [constructor|reflexivity].
  - destruct (IH (proj1 (proj1 (Forall_app _ _ _) V))) as (st & F & ->). exists (st ++ [l]). split; [apply Forall2_app; [exact F|constructor; [exact S|constructor]]|].
    rewrite concat_app. cbn [concat]. now rewrite app_nil_r.
  - destruct (IH (proj1 (proj1 (Forall_app _ _ _) V))) as (st & F & ->). rewrite (printed_quiet _ _ _ _ _ _ _ _ _ _ V EN A P).
    exists (st ++ [l]). split; [apply Forall2_app; [exact F|constructor; [exact S|constructor]]|].
    rewrite concat_app. cbn [concat]. now rewrite !app_nil_r.
Qed.

(** ** One source *)
Lemma regular_size content : regular_file content = Some (zlen content, reads_of (length content) FILE_CHUNCK_LEN content).
Proof. reflexivity. Qed.
Lemma stats_shown mode env ctl c ord size reads content :
  factory mode true env ctl = Ok (Some c) -> walk ord -> controls_ok (box_margo ctl) -> (forall n p, env n p = true) ->
  bytes_ok content -> reads_ok reads content -> (content <> [] -> size <> 0) ->
  exists s segs rest, decode_rtcm_file ord no_faults (Some (size, reads)) (started c) = (s, Ok true) /\ scans content segs rest /\
    let st := get_statistics (r_conv s) in
    parsing_errors st = interrupted_messages segs /\ decoded_in mode content (decoding_attempts st) (decoding_errors st) /\ printing_errors st = 0.
Proof.
  intros F O C EN B R Z. destruct (C11_parse_errors_exact [content] ltac:(constructor; [exact B|constructor])) as (_ & segs & rest & _ & S & _).
  cbn [concat] in S. rewrite app_nil_r in S.
  destruct (C38_statistics mode env ctl c ord size reads content segs rest F O C B R Z S) as (s & D & P & T & _ & _ & E).
  exists s, segs, rest. split; [exact D|]. split; [exact S|]. cbv zeta. split; [exact P|]. split; [|exact (E EN)]. exists segs, rest. auto.
Qed.

Lemma whole_finished ms st : whole_log ms (Finished st) = header ++ lines (ms ++ [closing_message st]).
Proof. destruct st; reflexivity. Qed.
Lemma one_told tx mode ctl lk f src content : In mode modes -> controls_ok (box_margo ctl) -> lucky lk -> lk_log lk = Some true ->
  f (work_folder src mode) = None -> inside (work_folder src mode) src = false -> f src = Some content -> bytes_ok content ->
  exists ms, log_messages mode (tx_source tx src) content ms /\ forall f1 l1 o,
    convert_one_log tx mode (Some ctl) lk f logger_init src = (f1, l1, Ok o) ->
    f1 (log_path mode src) = Some (header ++ lines ms) /\
    exists st, o = Finished st /\ ms = own_messages tx mode (Some ctl) lk f logger_init src ++ [closing_message st].
Proof.
  intros M C L LG FF NI FS B. pose proof L as (L1 & L2 & L3 & EN & L5 & W).
  destruct (factory_exists mode (lk_os lk) ctl M) as (c & F).
  pose proof (regular_reads content) as R.
  assert (Z : content <> [] -> zlen content <> 0) by (destruct content; [congruence|cbn; lia]).
  destruct (C61_log (tx_why tx) (tx_path tx) (tx_error tx) (tx_assertion tx) (tx_class tx) (tx_source tx src) (tx_exn tx) (tx_stray tx) (tx_missing tx)
    mode (lk_os lk) ctl c (lk_ord lk) (zlen content) _ content F W C B R Z) as (s & parts & E & LEN & TOLD & PROG).
  destruct (stats_shown mode (lk_os lk) ctl c (lk_ord lk) (zlen content) _ content F W C EN B R Z) as (s' & segs & rest & D & SC & P1 & P2 & P3).
  assert (s' = s) as ->.
  { pose proof (C61_same_run _ _ _ _ _ _ _ _ _ _ _ _ _ _ _ _ _ _ _ _ E) as X. congruence. }
  assert (OWN : own_messages tx mode (Some ctl) lk f logger_init src = greeting (tx_source tx src) :: written parts ++ [farewell (tx_source tx src) true]).
  { unfold own_messages, create_work_folder. rewrite FF, L1, L2. unfold init_logger. rewrite LG. cbn [init_2CH logger_init lg_ready lg_files]. rewrite F.
    replace (fs_set (rmtree (work_folder src mode) f) (log_path mode src) welcome src) with (Some content).
    2:{ unfold fs_set. rewrite (path_eqb_neq _ _ (not_log _ _ _ NI)). unfold rmtree. now rewrite NI. }
    rewrite regular_size, L5. change (String.eqb mode "JSON-B") with (is_bare mode). rewrite E. reflexivity. }
  exists (own_messages tx mode (Some ctl) lk f logger_init src ++ [closing_message (closing true (get_statistics (r_conv s)))]).
  split.
  - exists (reads_of (length content) FILE_CHUNCK_LEN content), parts, (decoding_attempts (get_statistics (r_conv s))), (decoding_errors (get_statistics (r_conv s))).
    assert (PC : in_pieces 4096 content (reads_of (length content) FILE_CHUNCK_LEN content)).
    { unfold FILE_CHUNCK_LEN. change (Z.to_nat 4096) with 4096%nat. apply reads_pieces; lia. }
    split; [exact PC|]. split; [exact LEN|]. split.
    { intros k sg rs S. exact (told_stories _ _ _ _ _ _ _ _ EN (scans_frames_valid _ _ _ S) (TOLD k sg rs S)). }
    split.
    { intros k ls p N. destruct (PROG k ls p N) as (s2 & D2 & (pct & -> & SH)).
      destruct (reads_prefix _ content (S k) B R) as (BK & RK & _).
      assert (ZK : concat (firstn (S k) (reads_of (length content) FILE_CHUNCK_LEN content)) <> [] -> zlen content <> 0).
      { intros NE. apply Z. destruct R as (RC & _). rewrite <- RC, <- (firstn_skipn (S k) (reads_of _ _ _)), concat_app. intros X. apply app_eq_nil in X. tauto. }
      destruct (stats_shown mode (lk_os lk) ctl c (lk_ord lk) (zlen content) _ _ F W C EN BK RK ZK) as (s3 & sg & rs & D3 & SC3 & Q1 & Q2 & Q3).
      assert (s3 = s2) as -> by congruence. exists sg, rs. do 2 eexists. exists pct. split; [exact SC3|]. split; [exact Q2|].
      split; [rewrite Q1, Q3; reflexivity|exact SH]. }
    split; [exact P2|].
    rewrite OWN. unfold closing. rewrite P3. unfold truth. change (negb (0 =? 0)) with false. cbn [orb]. rewrite orb_false_r.
    destruct (decoding_errors (get_statistics (r_conv s)) =? 0); cbn [negb closing_message app]; rewrite <- app_assoc; reflexivity.
  - intros f1 l1 o H. unfold convert_one_log in H.
    assert (LW : lucky (with_messages lk (own_messages tx mode (Some ctl) lk f logger_init src))) by exact L.
    destruct (one_lucky mode ctl _ f src content M C LW FF NI FS B) as (f1' & st & E1 & f2 & E2 & _).
    assert (f1' = f1) as -> by congruence.
    assert (ST : st = closing true (get_statistics (r_conv s))).
    2:{ subst st. split; [|eexists; split; [|reflexivity]; congruence].
        rewrite (one_log _ _ _ _ _ _ _ _ E1 LG ltac:(discriminate)), whole_finished. reflexivity. }
    unfold convert_file in E2. cbn [with_messages lk_ord lk_os] in E2. rewrite FF, F in E2. unfold rmtree in E2 at 1. rewrite NI, FS, regular_size, D in E2.
    congruence.
Qed.

(** ** The loop: as the loop of SessionModel, with these messages *)
Fixpoint told_jobs (tx : texts) (mode : string) (ctl : option boxed_controls) (f : fs) (l : logger) (jobs : list (path * luck)) : list (path * luck) :=
  match jobs with
  | [] => []
  | (src, lk) :: r =>
      let lk := with_messages lk (own_messages tx mode ctl lk f l src) in
      (src, lk) :: let '(f, l, _) := convert_one mode ctl lk f l src in told_jobs tx mode ctl f l r
  end.
Lemma loop_told tx mode ctl jobs : forall f l, convert_loop_log tx mode ctl f l jobs = convert_loop mode ctl f l (told_jobs tx mode ctl f l jobs).
Proof.
  induction jobs as [|[src lk] jobs IH]; intros f l; [reflexivity|]. cbn [convert_loop_log told_jobs convert_loop]. unfold convert_one_log.
  destruct (convert_one mode ctl _ f l src) as [[f1 l1] [o|e]]; [|reflexivity]. rewrite IH. reflexivity.
Qed.
Lemma told_app tx mode ctl b : forall a f l f1 l1 os, convert_loop mode ctl f l (told_jobs tx mode ctl f l a) = (f1, l1, (os, None)) ->
  told_jobs tx mode ctl f l (a ++ b) = told_jobs tx mode ctl f l a ++ told_jobs tx mode ctl f1 l1 b.
Proof.
  induction a as [|[src lk] a IH]; intros f l f1 l1 os H; cbn [told_jobs app convert_loop] in *.
  - assert (f1 = f /\ l1 = l) as (-> & ->) by (split; congruence). reflexivity.
  - destruct (convert_one mode ctl _ f l src) as [[f2 l2] [o|e]]; [|congruence].
    destruct (convert_loop mode ctl f2 l2 (told_jobs tx mode ctl f2 l2 a)) as [[f3 l3] [o3 x3]] eqn:E.
    assert (f3 = f1 /\ l3 = l1 /\ x3 = None) as (-> & -> & ->) by (repeat split; congruence). f_equal. exact (IH _ _ _ _ _ E).
Qed.
Lemma told_same tx mode ctl jobs : forall f l,
  Forall2 (fun a b => fst b = fst a /\ exists ms, snd b = with_messages (snd a) ms) jobs (told_jobs tx mode ctl f l jobs).
Proof.
  induction jobs as [|[src lk] jobs IH]; intros f l; cbn [told_jobs]; [constructor|].
  destruct (convert_one mode ctl _ f l src) as [[f1 l1] r]. constructor; [cbn; eauto|apply IH].
Qed.
Lemma told_sources tx mode ctl jobs f l : map fst (told_jobs tx mode ctl f l jobs) = map fst jobs.
Proof. pose proof (told_same tx mode ctl jobs f l) as H. induction H as [|a b r r' (E & _) _ IH]; [reflexivity|]. cbn [map]. now rewrite E, IH. Qed.
Lemma told_lucky tx mode ctl jobs f l : (forall src lk, In (src, lk) jobs -> lucky lk) -> forall src lk, In (src, lk) (told_jobs tx mode ctl f l jobs) -> lucky lk.
Proof.
  pose proof (told_same tx mode ctl jobs f l) as H. induction H as [|[y k] [z k'] r r' (E & ms & E2) _ IH]; intros L src lk I; [destruct I|].
  cbn [fst snd] in *. destruct I as [I|I]; [|exact (IH (fun s q Q => L s q (or_intror Q)) src lk I)].
  assert (lk = k') as -> by congruence. subst k'. exact (L y k (or_introl eq_refl)).
Qed.

(** ** C63 *)
Theorem C63_logs : forall tx kord defaults user ctl mode f jobs f' l' outs x,
  main_controls kord defaults user = Ok (Some ctl) -> controls_ok (box_margo ctl) -> In mode modes ->
  (forall src lk, In (src, lk) jobs -> lucky lk /\ lk_log lk = Some true) -> independent mode (map fst jobs) ->
  (forall src, In src (map fst jobs) -> f (work_folder src mode) = None /\ exists content, f src = Some content /\ bytes_ok content) ->
  main_log tx kord defaults user mode f jobs = (f', l', (outs, x)) ->
  forall src content, In src (map fst jobs) -> f src = Some content ->
    exists t, f' (log_path mode src) = Some t /\ log_text mode (tx_source tx src) content t.
Proof.
  intros tx kord defaults user ctl mode f jobs f' l' outs x MC C M LK IND H0 R src content Is FS. unfold main_log in R. rewrite MC, loop_told in R.
  set (jobs' := told_jobs tx mode (Some ctl) f logger_init jobs) in *.
  assert (MF : map fst jobs' = map fst jobs) by apply told_sources.
  assert (LK' : forall y k, In (y, k) jobs' -> lucky k) by (apply told_lucky; intros y k I; exact (proj1 (LK y k I))).
  assert (X : x = None).
  { refine (loop_lucky mode ctl (map fst jobs) f M C IND H0 jobs' f f' l' outs x _ LK' _ R); [rewrite MF; apply incl_refl|auto]. }
  subst x. destruct (last_job src jobs Is) as (before & lk & after & EJ & NA).
  assert (INb : forall y, In y (map fst before) -> In y (map fst jobs)) by (intros y I; rewrite EJ, map_app; apply in_or_app; now left).
  assert (INa : forall y, In y (map fst after) -> In y (map fst jobs)) by (intros y I; rewrite EJ, map_app; apply in_or_app; right; now right).
  destruct (convert_loop mode (Some ctl) f logger_init (told_jobs tx mode (Some ctl) f logger_init before)) as [[f1 l1] [o1 x1]] eqn:B.
  assert (x1 = None) as ->.
  { refine (loop_lucky mode ctl (map fst jobs) f M C IND H0 _ f f1 l1 o1 x1 _ _ _ B); [rewrite told_sources; exact INb| |auto].
    apply told_lucky. intros y k I. apply (LK y k). rewrite EJ. apply in_or_app. now left. }
  pose proof (told_app tx mode (Some ctl) ((src, lk) :: after) before f logger_init f1 l1 o1 B) as J. rewrite <- EJ in J. fold jobs' in J. rewrite J in R.
  destruct (loop_idle _ _ _ _ _ _ _ B) as (-> & _).
  rewrite loop_app, B in R. cbn [told_jobs convert_loop] in R.
  assert (NI : inside (work_folder src mode) src = false) by (now apply (IND src src)).
  destruct (H0 src Is) as (FF & content' & FS' & BC). assert (content' = content) as -> by congruence. clear FS'.
  assert (OUT : forall p, (forall y, In y (map fst jobs) -> inside (work_folder y mode) p = false) -> f1 p = f p).
  { intros p N. apply (loop_outside _ _ _ _ _ _ _ p B). intros y k I. apply N, INb. rewrite <- (told_sources tx mode (Some ctl) before f logger_init). apply (in_map fst _ _ I). }
  assert (F1s : f1 src = Some content) by (rewrite OUT; [exact FS|]; intros y I; now apply (IND y src)).
  assert (F1f : f1 (work_folder src mode) = None).
  { rewrite OUT; [exact FF|]. intros y I. destruct (IND y src I Is) as ([->|(_ & Q & _)] & _); [apply inside_irrefl|exact Q]. }
  destruct (LK src lk) as (Lk & LG); [rewrite EJ; apply in_or_app; right; now left|].
  destruct (one_told tx mode ctl lk f1 src content M C Lk LG F1f NI F1s BC) as (ms & LM & ONE). exists (header ++ lines ms). split; [|exists ms; auto].
  unfold convert_one_log in ONE.
  destruct (convert_one mode (Some ctl) _ f1 logger_init src) as [[f2 l2] [o2|e]] eqn:O; [|congruence].
  destruct (ONE f2 l2 o2 eq_refl) as (ONE' & _). rewrite (one_idle _ _ _ _ _ _ _ _ O) in R.
  destruct (convert_loop mode (Some ctl) f2 logger_init (told_jobs tx mode (Some ctl) f2 logger_init after)) as [[f3 l3] [o3 x3]] eqn:A.
  replace f' with f3 by congruence. transitivity (f2 (log_path mode src)); [|exact ONE']. apply (loop_outside _ _ _ _ _ _ _ _ A). intros y k I.
  assert (Iy : In y (map fst after)) by (rewrite <- (told_sources tx mode (Some ctl) after f2 logger_init); apply (in_map fst _ _ I)).
  destruct (IND y src (INa y Iy) Is) as ([->|(Q1 & Q2 & Q3)] & _); [contradiction|].
  destruct (inside (work_folder y mode) (log_path mode src)) eqn:IY; [|reflexivity].
  destruct (inside_two _ _ _ IY (log_inside mode src)) as [Q|[Q|Q]]; congruence.
Qed.
Print Assumptions C63_logs.

(** The command: C60 and C56, with the logs. *)
Lemma combine_self {A B} (l : list (A * B)) : combine (map fst l) (map snd l) = l.
Proof. induction l as [|[a b] l IH]; [reflexivity|]. cbn. now rewrite IH. Qed.
Lemma map_nth_seq {A} (l : list A) (d : nat -> A) : forall k, map (fun n => match nth_error l (n - k) with Some x => x | None => d n end) (seq k (length l)) = l.
Proof.
  induction l as [|x l IH]; intros k; [reflexivity|]. cbn [length seq map]. rewrite Nat.sub_diag. cbn [nth_error]. f_equal.
  rewrite <- (IH (S k)) at 2. apply map_ext_in. intros n I. apply in_seq in I. replace (n - k)%nat with (S (n - S k)) by lia. reflexivity.
Qed.

Lemma command_told tx kord cwd d ini typed lks f argv : (forall n, lucky (lks n)) ->
  exists lks', (forall n, lucky (lks' n)) /\ program_log tx kord cwd d ini typed lks f argv = program kord cwd d ini typed lks' f argv.
Proof.
  intros L. unfold program_log, program. destruct (snd (init_from_file kord controls_init (ini DEFAULT_CONFIG))) as [u|e]; [|exists lks; auto].
  destruct (parse_args argv) as [n| | |]; try (exists lks; now auto).
  destruct n as [mode u' ext [srcs|]]; [|exists lks; now auto].
  set (files := make_list_of_source_files cwd d srcs ext typed). set (jobs := combine files (map lks (seq 0 (length files)))).
  assert (MJ : map fst jobs = files) by (apply map_fst_combine; rewrite map_length, seq_length; reflexivity).
  unfold main_log, main. destruct (main_controls kord (ini DEFAULT_CONFIG) (option_map ini u')) as [ctl|e]; [|exists lks; auto].
  set (jobs' := told_jobs tx mode ctl f logger_init jobs).
  exists (fun n => match nth_error (map snd jobs') (n - 0) with Some x => x | None => lks n end). split.
  - intros n. destruct (nth_error (map snd jobs') (n - 0)) as [k|] eqn:E; [|apply L]. apply nth_error_In in E. apply in_map_iff in E as ([y k'] & <- & I).
    apply (told_lucky tx mode ctl jobs f logger_init) with (src := y); [|exact I]. intros z q Q. apply in_combine_r in Q. apply in_map_iff in Q as (m & <- & _). apply L.
  - assert (LJ : length (map snd jobs') = length files).
    { rewrite map_length, <- (map_length fst jobs'). unfold jobs'. rewrite told_sources, MJ. reflexivity. }
    rewrite <- LJ, map_nth_seq. rewrite <- MJ at 1. rewrite <- (told_sources tx mode ctl jobs f logger_init). fold jobs'. rewrite combine_self, loop_told. fold jobs'. reflexivity.
Qed.

Theorem C63_command : forall tx kord cwd d ini typed lks f argv s srcs mode files ctl,
  says argv s srcs -> formats_known s -> Some mode = last_of Format s (Some "MARGO") ->
  existing cwd d srcs files -> (forall x p ns, srcs = [x] -> stands_for cwd x p -> d p <> KDir ns) -> same_disk d f ->
  main_controls kord (ini "defaults.ini") (option_map ini (last_of Ini s None)) = Ok (Some ctl) -> controls_ok (box_margo ctl) ->
  (forall n, lucky (lks n) /\ lk_log (lks n) = Some true) -> independent mode files ->
  (forall src content, In src files -> f (work_folder src mode) = None /\ (f src = Some content -> bytes_ok content)) ->
  exists f' outs, program_log tx kord cwd d ini typed lks f argv = Ran f' outs None /\ length outs = length files /\
    (forall p, (forall src, In src files -> inside (work_folder src mode) p = false) -> f' p = f p) /\
    forall src, In src files -> exists content, f src = Some content /\ products mode ctl src content f' /\
      exists t, f' (work_folder src mode ++ [log_file_name src]) = Some t /\ log_text mode (tx_source tx src) content t.
Proof.
  intros tx kord cwd d ini typed lks f argv s srcs mode files ctl SY FK MD EX ND SD MC C LK IND H0.
  destruct (command_told tx kord cwd d ini typed lks f argv (fun n => proj1 (LK n))) as (lks' & LK' & E).
  destruct (C60_command kord cwd d ini typed lks' f argv s srcs mode files ctl SY FK MD EX ND SD MC C LK' IND H0) as (f' & outs & R & LEN & OUT & PR).
  exists f', outs. split; [congruence|]. split; [exact LEN|]. split; [exact OUT|]. intros src I. destruct (PR src I) as (content & FS & P).
  exists content. split; [exact FS|]. split; [exact P|].
  rewrite <- E in R. clear E LK' lks'. unfold program_log in R.
  destruct (snd (init_from_file kord controls_init (ini DEFAULT_CONFIG))) as [u|e]; [|congruence].
  destruct (C59_complete argv s srcs SY FK) as (n & A & (U1 & U2 & U3 & U4)). destruct n as [m u' ext so]. cbn [n_format n_ini n_ext n_source] in *. subst so u'.
  assert (m = mode) as -> by congruence. rewrite A in R.
  assert (FL : make_list_of_source_files cwd d srcs ext typed = files).
  { rewrite (existing_unique _ _ _ _ EX). apply existing_unique. apply C53_listed. intros x p Ex ST ns. exact (ND x p ns Ex ST). }
  rewrite FL in R. set (jobs := combine files (map lks (seq 0 (length files)))) in *.
  assert (MJ : map fst jobs = files) by (apply map_fst_combine; rewrite map_length, seq_length; reflexivity).
  destruct (main_log tx kord (ini DEFAULT_CONFIG) (option_map ini (last_of Ini s None)) mode f jobs) as [[f2 l2] [o2 x2]] eqn:ML.
  assert (f2 = f') as -> by congruence.
  refine (C63_logs tx kord _ _ ctl mode f jobs f' l2 o2 x2 MC C (proj1 (C59_format _ _ A)) _ _ _ ML src content _ FS).
  - intros y k Iy. apply in_combine_r in Iy. apply in_map_iff in Iy as (q & <- & _). apply LK.
  - rewrite MJ. exact IND.
  - rewrite MJ. intros y Iy. destruct (PR y Iy) as (cy & Fy & _). destruct (H0 y cy Iy) as (N & B). split; [exact N|]. exists cy. auto.
  - rewrite MJ. exact I.
Qed.
Print Assumptions C63_command.

(** A case of C63_command: that of C60_command, with the two logs in full. *)
Definition shown_path (p : path) : text := ustr (String.concat "/" ("" :: p)).
Definition plain_texts : texts :=
  {| tx_why := fun _ _ => []; tx_path := fun _ => []; tx_error := fun _ => []; tx_assertion := fun _ => []; tx_class := ustr;
     tx_source := shown_path; tx_exn := fun _ => []; tx_stray := fun _ => []; tx_missing := true |}.
Definition rows (l : list string) : text := flat_map (fun s => ustr s ++ [10]) l.
Example C63_nonvacuous :
  let argv := ["a.rtcm3"; "x/../../d//b.rtcm3"; "nothing"; "--output=JARGO"] in
  let files := [["d"; "a.rtcm3"]; ["d"; "b.rtcm3"]] in
  (exists s srcs mode ctl,
    says argv s srcs /\ formats_known s /\ Some mode = last_of Format s (Some "MARGO") /\
    existing ["d"] d_disk srcs files /\ (forall x p ns, srcs = [x] -> stands_for ["d"] x p -> d_disk p <> KDir ns) /\ same_disk d_disk sample_fs /\
    main_controls PropertiesControls.ident (shipped_ini "defaults.ini") (option_map shipped_ini (last_of Ini s None)) = Ok (Some ctl) /\ controls_ok (box_margo ctl) /\
    (lucky (sample_luck []) /\ lk_log (sample_luck []) = Some true) /\ independent mode files /\
    (forall src content, In src files -> sample_fs (work_folder src mode) = None /\ (sample_fs src = Some content -> bytes_ok content))) /\
  match program_log plain_texts PropertiesControls.ident ["d"] d_disk shipped_ini [] (fun _ => sample_luck []) sample_fs argv with
  | Ran f' outs x => outs = [Finished WithoutErrors; Finished WithoutErrors] /\ x = None /\
      f' ["d"; "a-JARGO"; "a-log.txt"] = Some (rows
        ["New log file was created."; "-------------------------"; "RTCMDEC:INFO: Opened file /d/a.rtcm3.";
         "RTCMDEC:INFO: Msg 1005. Decoding succeeded"; "RTCMDEC:PROGRESS: 100.00%, 1 messages, prs-dec-prnt errors 0-0-0.";
         "RTCMDEC:INFO: Closing file /d/a.rtcm3."; "RTCMDEC:PROGRESS: Finished without errors."]) /\
      f' ["d"; "b-JARGO"; "b-log.txt"] = Some (rows
        ["New log file was created."; "-------------------------"; "RTCMDEC:INFO: Opened file /d/b.rtcm3.";
         "RTCMDEC:INFO: Msg 1029. Decoding succeeded"; "RTCMDEC:PROGRESS: 100.00%, 1 messages, prs-dec-prnt errors 0-0-0.";
         "RTCMDEC:INFO: Closing file /d/b.rtcm3."; "RTCMDEC:PROGRESS: Finished without errors."])
  | _ => False
  end.
Proof.
  cbv zeta. split.
  { destruct C60_nonvacuous as (s & srcs & mode & ctl & A & B & C & D & E & F & G & H & I & J & K & _).
    exists s, srcs, mode, ctl. repeat (split; [solve [eassumption|split; [exact I|reflexivity]]|]). exact K. }
  vm_compute. repeat split.
Qed.
