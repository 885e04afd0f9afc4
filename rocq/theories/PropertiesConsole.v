(** * What the user sees: C64, C65. *)
From Coq Require Import Permutation.
From Verif Require Import PyBase PyDict PyFloat PyVal PyFormat FramerSpec DecoderModel DecoderSpec MargoModel JsonModel TestData PrinterModel PrinterSpec MargoSpec MargoFiles
  PropertiesPrinter MainModel MainSpec MainProofs PropertiesMain PropertiesFiles ControlsModel ControlsSpec SessionModel SessionSpec SessionProofs PropertiesSession SourcesModel SourcesSpec PropertiesSources
  IniModel IniData ArgsModel ArgsSpec PropertiesArgs ProgramModel ProgramSpec PropertiesProgram LogModel LogSpec FullModel FullSpec PropertiesFull ConsoleModel ConsoleSpec.
From Verif Require PropertiesControls.
Local Open Scope string_scope.
Local Open Scope list_scope.
Local Open Scope Z_scope.

(** ** Records on the console *)
Lemma shown_writing file m : log_shown (writing file) m = if serious m then [Logged m] else [].
Proof. unfold log_shown, writing, serious. cbn [lg_ready lg_files length repeat]. destruct m as [[] t]; reflexivity. Qed.
Lemma shown_all_writing file ms : log_all_shown (writing file) ms = map Logged (filter serious ms).
Proof. induction ms as [|m ms IH]; [reflexivity|]. unfold log_all_shown in *. cbn [flat_map filter]. rewrite IH, shown_writing. destruct (serious m); reflexivity. Qed.
Lemma shown_idle m : log_shown logger_init m = [].
Proof. reflexivity. Qed.
Lemma shown_all_idle ms : log_all_shown logger_init ms = [].
Proof. induction ms as [|m ms IH]; [reflexivity|exact IH]. Qed.

(** The records of a source: what the log is made of. *)
Definition records (ms : list line) (o : outcome) : list line := match o with NoFolder | NoControls => [] | _ => ms end.
Lemma whole_records ms o : o <> NoFolder -> whole_log ms o = header ++ lines (records ms o ++ verdict o).
Proof. intros N. destruct o as [| | |[]]; reflexivity. Qed.

Section Console.
Variable tx : texts.
Variable folder_text log_err : path -> text.
Lemma one_block mode ctl lk f src f' l' o : convert_one mode ctl lk f logger_init src = (f', l', Ok o) ->
  exists ms, block (tx_source tx src) o ms (convert_one_shown tx folder_text log_err mode ctl lk f logger_init src) /\
    (o <> NoFolder -> match lk_log lk with Some true => ms = Some (records (lk_messages lk) o ++ verdict o) | _ => lk_log lk = Some false /\ ms = None end) /\
    (o = NoFolder -> ms = None).
Proof.
  intros H. unfold convert_one in H. unfold convert_one_shown.
  change ([Printed (ustr (String.concat "" (repeat "-" 80))); Printed (ustr "Started decoding: " ++ tx_source tx src)]) with (heading (tx_source tx src)).
  unfold create_work_folder_shown. unfold create_work_folder in *. cbv zeta in *.
  destruct (f (work_folder src mode)).
  { assert (o = NoFolder) as -> by congruence. exists None. split; [rewrite app_nil_r; constructor; now left|]. split; [congruence|auto]. }
  destruct (lk_rmtree lk) as [keep|].
  { assert (o = NoFolder) as -> by congruence. exists None. split; [rewrite app_nil_r; constructor; now right|]. split; [congruence|auto]. }
  destruct (lk_mkdir lk).
  2:{ assert (o = NoFolder) as -> by congruence. exists None. split; [rewrite app_nil_r; constructor; now left|]. split; [congruence|auto]. }
  unfold init_logger_shown. destruct (lk_log lk) as [[]|] eqn:LG; [| |unfold init_logger in H; rewrite LG in H; congruence].
  - rewrite init_idle in * by congruence. unfold chosen in *. rewrite LG in *.
    assert (X : forall o', o' <> NoFolder -> o = o' -> forall tail, tail = map Logged (filter serious (records (lk_messages lk) o' ++ verdict o')) ->
      exists ms, block (tx_source tx src) o ms (heading (tx_source tx src) ++ [Printed (ustr "Created work folder.")] ++ [Printed (ustr "New log file was created.")] ++ tail) /\
        (o <> NoFolder -> ms = Some (records (lk_messages lk) o ++ verdict o)) /\ (o = NoFolder -> ms = None)).
    { intros o' N -> tail ->. exists (Some (records (lk_messages lk) o' ++ verdict o')). split; [|split; [auto|congruence]]. apply block_log. exact N. }
    destruct ctl as [ctl|].
    + destruct (factory mode true (lk_os lk) ctl) as [[c|]|e]; [| |congruence].
      * destruct (decode_rtcm_file _ _ _ _) as [s [b|e]]; [|congruence].
        apply (X (Finished (closing b (get_statistics (r_conv s))))); [discriminate|congruence|].
        rewrite shown_all_writing, filter_app, map_app, shown_writing. f_equal. destruct (closing b (get_statistics (r_conv s))); reflexivity.
      * apply (X NoConverter); [discriminate|congruence|]. rewrite shown_all_writing, filter_app, map_app, shown_writing. reflexivity.
    + apply (X NoControls); [discriminate|congruence|]. rewrite shown_writing. reflexivity.
  - rewrite init_idle in * by congruence. unfold chosen in *. rewrite LG in *.
    assert (X : o <> NoFolder -> forall tail, tail = [] ->
      exists ms, block (tx_source tx src) o ms (heading (tx_source tx src) ++ [Printed (ustr "Created work folder.")] ++
          [Printed (ustr "Failed to create log file."); Printed (log_err (log_path mode src))] ++ tail) /\
        (o <> NoFolder -> Some false = Some false /\ ms = None) /\ (o = NoFolder -> ms = None)).
    { intros N tail ->. exists None. split; [apply (block_no_log _ _ _ N)|auto]. }
    destruct ctl as [ctl|].
    + destruct (factory mode true (lk_os lk) ctl) as [[c|]|e]; [| |congruence].
      * destruct (decode_rtcm_file _ _ _ _) as [s [b|e]]; [|congruence].
        assert (N : o <> NoFolder) by congruence. apply (X N). now rewrite shown_all_idle.
      * assert (N : o <> NoFolder) by congruence. apply (X N). now rewrite shown_all_idle.
    + assert (N : o <> NoFolder) by congruence. apply (X N). reflexivity.
Qed.

(** The console shows one block for each source, in the order of the sources, and the log of a
    source holds the records of its block: whatever is serious in it has been shown, and nothing
    else.  (A loop that is ended by an exception has a block for every source before that.) *)
Theorem C64_console : forall mode ctl f jobs f' l' outs x,
  convert_loop_log tx mode ctl f logger_init jobs = (f', l', (outs, x)) ->
  exists told rest, convert_loop_shown tx folder_text log_err mode ctl f logger_init jobs = flat_map snd told ++ rest /\
    length told = length outs /\ (x = None -> rest = [] /\ length outs = length jobs) /\
    forall k src lk o ms b, nth_error jobs k = Some (src, lk) -> nth_error outs k = Some o -> nth_error told k = Some (ms, b) ->
      block (tx_source tx src) o ms b /\ (ms = None <-> o = NoFolder \/ lk_log lk = Some false) /\
      forall m, ms = Some m -> (forall y, In y (map fst (skipn (S k) jobs)) -> inside (work_folder y mode) (log_path mode src) = false) ->
        f' (log_path mode src) = Some (header ++ lines m).
Proof.
  intros mode ctl f jobs. revert f. induction jobs as [|[src lk] jobs IH]; intros f f' l' outs x H; cbn [convert_loop_log convert_loop_shown] in *.
  - exists [], []. assert (outs = [] /\ x = None) as (-> & ->) by (split; congruence). split; [reflexivity|]. split; [reflexivity|]. split; [auto|].
    intros k. destruct k; discriminate.
  - unfold convert_one_log in H. set (lk' := with_messages lk _) in *.
    destruct (convert_one mode ctl lk' f logger_init src) as [[f1 l1] [o|e]] eqn:O.
    2:{ exists [], (convert_one_shown tx folder_text log_err mode ctl lk' f logger_init src).
        assert (outs = [] /\ x = Some e) as (-> & ->) by (split; congruence). split; [now rewrite app_nil_r|]. split; [reflexivity|]. split; [discriminate|].
        intros k src0 lk0 o0 ms b _ N. destruct k; discriminate. }
    pose proof (one_idle _ _ _ _ _ _ _ _ O) as ->.
    destruct (convert_loop_log tx mode ctl f1 logger_init jobs) as [[f2 l2] [os x2]] eqn:L.
    assert (f' = f2 /\ outs = o :: os /\ x = x2) as (-> & -> & ->) by (repeat split; congruence).
    destruct (IH _ _ _ _ _ L) as (told & rest & S & LEN & E & EACH).
    destruct (one_block _ _ _ _ _ _ _ _ O) as (ms & B & M1 & M2).
    exists ((ms, convert_one_shown tx folder_text log_err mode ctl lk' f logger_init src) :: told), rest.
    split; [cbn [flat_map snd]; rewrite <- app_assoc, S; reflexivity|]. split; [cbn [length]; now rewrite LEN|].
    split; [intros Ex; destruct (E Ex) as (-> & EL); split; [reflexivity|cbn [length]; now rewrite EL]|].
    intros k src0 lk0 o0 ms0 b0 N1 N2 N3. destruct k as [|k]; cbn [nth_error] in *; [|exact (EACH k _ _ _ _ _ N1 N2 N3)].
    assert (src0 = src /\ lk0 = lk /\ o0 = o /\ ms0 = ms) as (-> & -> & -> & ->) by (repeat split; congruence).
    assert (b0 = convert_one_shown tx folder_text log_err mode ctl lk' f logger_init src) as -> by congruence.
    split; [exact B|]. change (lk_log lk) with (lk_log lk').
    split.
    { destruct o; try (split; [auto|]; now auto); (specialize (M1 ltac:(discriminate)); destruct (lk_log lk') as [[]|];
        [split; [congruence|intros [|]; congruence]|split; [auto|tauto]|destruct M1; congruence]). }
    intros m -> OUT. assert (NF : o <> NoFolder) by (intros ->; specialize (M2 eq_refl); congruence). specialize (M1 NF).
    destruct (lk_log lk') as [[]|] eqn:LG; [|destruct M1; congruence|destruct M1; congruence].
    rewrite loop_told in L. rewrite (loop_outside _ _ _ _ _ _ _ (log_path mode src) L).
    + rewrite (one_log _ _ _ _ _ _ _ _ O LG NF), (whole_records _ _ NF). injection M1 as ->. reflexivity.
    + intros y k I. apply OUT. cbn [skipn]. rewrite <- (told_sources tx mode ctl jobs f1 logger_init). apply (in_map fst _ _ I).
Qed.
End Console.
Print Assumptions C64_console.

(** A source that was not converted without errors is reported, provided that its log could be
    created. *)
Theorem C64_reported : forall tx folder_text log_err mode ctl f jobs f' l' outs x k src lk o,
  convert_loop_log tx mode ctl f logger_init jobs = (f', l', (outs, x)) ->
  nth_error jobs k = Some (src, lk) -> nth_error outs k = Some o -> o <> Finished WithoutErrors -> o = NoFolder \/ lk_log lk <> Some false ->
  exists before b after, convert_loop_shown tx folder_text log_err mode ctl f logger_init jobs = before ++ b ++ after /\
    firstn 2 b = heading (tx_source tx src) /\ told_failed o b.
Proof.
  intros tx ft lt mode ctl f jobs f' l' outs x k src lk o H J O NW LG.
  destruct (C64_console tx ft lt mode ctl f jobs f' l' outs x H) as (told & rest & S & LEN & _ & EACH).
  assert (T : exists ms b, nth_error told k = Some (ms, b)).
  { destruct (nth_error told k) as [[ms b]|] eqn:E; [eauto|]. apply nth_error_None in E. assert (k < length outs)%nat by (apply nth_error_Some; congruence). lia. }
  destruct T as (ms & b & T). destruct (EACH k src lk o ms b J O T) as (B & N & _).
  destruct (nth_error_split _ _ T) as (t1 & t2 & -> & _).
  exists (flat_map snd t1), b, (flat_map snd t2 ++ rest). split; [rewrite S, flat_map_app; cbn [flat_map snd]; now rewrite <- !app_assoc|].
  destruct B as [why reason W|o reason NF|o ms NF].
  - split; [reflexivity|]. cbn [told_failed]. destruct W as [-> | ->]; [left|right]; right; right; left; reflexivity.
  - exfalso. destruct (proj1 N eq_refl) as [X|X]; [congruence|]. destruct LG; congruence.
  - split; [reflexivity|]. rewrite filter_app, map_app.
    assert (I : forall m p q, verdict o = [m] -> serious m = true -> In (Logged m) (p ++ q ++ map Logged (filter serious (verdict o)))).
    { intros m p q -> Sm. apply in_or_app. right. apply in_or_app. right. cbn [filter]. rewrite Sm. now left. }
    rewrite app_assoc. destruct o as [| | |[]]; [congruence| | | | |]; cbn [told_failed]; try (apply I; reflexivity). congruence.
Qed.
Print Assumptions C64_reported.

(** It is not true without that condition: if the log cannot be created, then the console is silent
    about everything that happens later, also about errors. *)
Definition short_1019 : list Z := [211; 0; 2; 63; 176; 215; 29; 115].
Definition no_log_luck : luck :=
  {| lk_rmtree := None; lk_mkdir := true; lk_log := Some false; lk_os := fun _ _ => true; lk_faults := no_faults; lk_ord := fun l => l; lk_messages := [] |}.
Theorem C64_silent_refuted : exists tx ft lt mode ctl f src lk f' l' st,
  convert_loop_log tx mode (Some ctl) f logger_init [(src, lk)] = (f', l', ([Finished st], None)) /\ st <> WithoutErrors /\
  convert_loop_shown tx ft lt mode (Some ctl) f logger_init [(src, lk)] =
    heading (tx_source tx src) ++
    [Printed (ustr "Created work folder."); Printed (ustr "Failed to create log file."); Printed (lt (log_path mode src))].
Proof.
  set (f := (fun p => if path_eqb p ["d"; "a.rtcm3"] then Some short_1019 else None) : fs).
  destruct (convert_loop_log plain_texts "JSON" (Some sample_box) f logger_init [(["d"; "a.rtcm3"], no_log_luck)]) as [[f' l'] ox] eqn:E.
  exists plain_texts, (fun _ => []), (fun _ => []), "JSON", sample_box, f, ["d"; "a.rtcm3"], no_log_luck, f', l', WithErrors.
  split; [|split; [discriminate|vm_compute; reflexivity]].
  assert (X : snd (convert_loop_log plain_texts "JSON" (Some sample_box) f logger_init [(["d"; "a.rtcm3"], no_log_luck)]) = ([Finished WithErrors], None)) by (vm_compute; reflexivity).
  rewrite E in X. cbn [snd] in X. etransitivity; [exact E|]. now rewrite X.
Qed.
Print Assumptions C64_silent_refuted.

(** The same source when the log can be created; and two more. *)
Example C64_nonvacuous :
  let f := (fun p => if path_eqb p ["d"; "a.rtcm3"] then Some short_1019 else if path_eqb p ["d"; "b.rtcm3"] then Some sample_1005 else None) : fs in
  let jobs := [(["d"; "a.rtcm3"], sample_luck []); (["d"; "b.rtcm3"], no_log_luck); (["d"; "c.rtcm3"], sample_luck [])] in
  let shown := convert_loop_shown plain_texts (fun _ => []) (fun _ => ustr "<class 'OSError'>: no") "JSON" (Some sample_box) f logger_init jobs in
  snd (convert_loop_log plain_texts "JSON" (Some sample_box) f logger_init jobs) = ([Finished WithErrors; Finished WithoutErrors; Finished Terminated], None) /\
  shown =
    heading (ustr "/d/a.rtcm3") ++ [Printed (ustr "Created work folder."); Printed (ustr "New log file was created.");
      Logged (LError, ustr "Msg 1019. Decoding failed. "); Logged (LWarning, ustr "Decoder EPH returned unexpected result for msg 1019");
      Logged (LCritical, ustr "100.00%, 1 messages, prs-dec-prnt errors 0-1-0."); Logged (LCritical, ustr "Finished with errors.")] ++
    heading (ustr "/d/b.rtcm3") ++ [Printed (ustr "Created work folder."); Printed (ustr "Failed to create log file."); Printed (ustr "<class 'OSError'>: no")] ++
    heading (ustr "/d/c.rtcm3") ++ [Printed (ustr "Created work folder."); Printed (ustr "New log file was created.");
      Logged (LError, ustr "Got FileNotFoundError exception."); Logged (LError, []); Logged (LError, ustr "Decoding was terminated.")].
Proof. vm_compute. repeat split. Qed.

(** ** The list of a directory *)
Lemma in_two_pad n : exists pad, (pad = [] \/ pad = [32]) /\ in_two n = pad ++ number n.
Proof. unfold in_two, number. destruct (Nat.ltb (length (py_int_str n)) 2); [exists [32]|exists []]; auto. Qed.

(** When a directory with RTCM files is named, a numbered line is shown for each of them; the
    numbers that the user then types choose the files beside which they were shown. *)
Theorem C64_numbers : forall tx repr cwd d dir p ns ext typed,
  stands_for cwd dir p -> d p = KDir ns -> SourcesModel.shown d p ext <> [] ->
  exists first items question (rest : list shown_line), sources_shown tx repr cwd d [dir] ext typed = Printed first :: items ++ Asked question :: rest /\
    (forall nums, answer_says typed nums -> rest = []) /\ ((forall nums, ~ answer_says typed nums) -> exists t, rest = [Printed t]) /\
    length items = length (SourcesModel.shown d p ext) /\
    forall nums n, answer_says typed nums -> In n nums -> 1 <= n <= zlen items ->
      exists file line, In file (make_list_of_source_files cwd d [dir] ext typed) /\
    nth_error items (Z.to_nat (n - 1)) = Some line /\ numbered_line repr n file line.
Proof.
  intros tx repr cwd d dir p ns ext typed ST D NE.
  pose proof (C53_chosen cwd d dir p ns ext typed ST D NE) as (CH & NC). cbv zeta in CH, NC.
  assert (p = abspath cwd dir) as -> by exact (stands_unique _ _ _ _ ST (abspath_stands cwd dir)).
  unfold sources_shown, src_is_dir, isfile, isdir. rewrite D. cbn [negb andb hd]. cbv zeta.
  set (files := SourcesModel.shown d (abspath cwd dir) ext) in *.
  destruct files as [|f0 fr] eqn:EF; [congruence|]. rewrite <- EF in *. clear NE.
  do 4 eexists. split; [cbn [app]; reflexivity|].
  split; [|split; [|split]].
  - intros nums (words & J & F). pose proof (joined_unique 32 Z.eq_dec _ _ J _ (split_space_joined typed)) as ->.
    destruct (indexes_ok (zlen files) _ _ F) as (is & E & _). rewrite E. reflexivity.
  - intros H. destruct (indexes (zlen files) (split_space typed)) as [is|e] eqn:E; [|eauto].
    destruct (indexes_inv _ _ _ E) as (nums & F). elim (H nums). exists (split_space typed). split; [apply split_space_joined|exact F].
  - rewrite map_length, combine_length, seq_length. apply Nat.min_id.
  - intros nums n AS I R.
    assert (LL : zlen (map (fun x => Printed (in_two (Z.of_nat (fst x)) ++ ustr " : " ++ repr (snd x))) (combine (seq 1 (length files)) files)) = zlen files).
    { unfold zlen. rewrite map_length, combine_length, seq_length, Nat.min_id. reflexivity. }
    rewrite LL in R. specialize (CH nums AS).
    assert (N : exists file, nth_error files (Z.to_nat (n - 1)) = Some file).
    { destruct (nth_error files (Z.to_nat (n - 1))) eqn:E; [eauto|]. apply nth_error_None in E. unfold zlen in R. lia. }
    destruct N as (file & N). exists file. eexists. split; [|split].
    + clear - CH I N R. induction CH as [|i q is ps G E P IH|i is ps G P IH]; [destruct I| |].
      * destruct I as [->|I]; [left; congruence|right; auto].
      * destruct I as [->|I]; [lia|auto].
    + apply map_nth_error. instantiate (1 := (Z.to_nat n, file)).
      assert (X : forall (l : list path) k j x, nth_error l j = Some x -> nth_error (combine (seq k (length l)) l) j = Some ((k + j)%nat, x)).
      { clear. induction l as [|y l IH]; intros k j x H; [destruct j; discriminate|]. destruct j as [|j]; cbn [nth_error] in H.
        - cbn. rewrite Nat.add_0_r. congruence.
        - cbn [length seq combine nth_error]. rewrite (IH (S k) j x H). f_equal. f_equal. lia. }
      rewrite (X _ 1%nat _ _ N). f_equal. f_equal. lia.
    + cbn [fst snd]. rewrite Z2Nat.id by lia. destruct (in_two_pad n) as (pad & P & ->). exists pad. split; [exact P|]. now rewrite <- app_assoc.
Qed.
Print Assumptions C64_numbers.

(** ** The whole command *)
Lemma block_shows shown o m b : block shown o (Some m) b ->
  b = heading shown ++ [Printed (ustr "Created work folder."); Printed (ustr "New log file was created.")] ++ map Logged (filter serious m).
Proof. intros B. inversion B; subst. reflexivity. Qed.
Lemma loop_seen tx ft lt mode ctl all f0 : In mode modes -> controls_ok (box_margo ctl) -> independent mode all ->
  (forall src, In src all -> f0 (work_folder src mode) = None /\ exists content, f0 src = Some content /\ bytes_ok content) ->
  forall jobs f f' l' outs x, incl (map fst jobs) all -> (forall src lk, In (src, lk) jobs -> lucky lk /\ lk_log lk = Some true) ->
  (forall src, In src all -> f (work_folder src mode) = f0 (work_folder src mode) /\ f src = f0 src) ->
  convert_loop_log tx mode (Some ctl) f logger_init jobs = (f', l', (outs, x)) ->
  exists blocks, convert_loop_shown tx ft lt mode (Some ctl) f logger_init jobs = concat blocks /\ length blocks = length jobs /\
    forall k src, nth_error (map fst jobs) k = Some src ->
      exists content ms, f0 src = Some content /\ log_messages mode (tx_source tx src) content ms /\
        nth_error blocks k = Some (heading (tx_source tx src) ++
          [Printed (ustr "Created work folder."); Printed (ustr "New log file was created.")] ++ map Logged (filter serious ms)) /\
        (~ In src (skipn (S k) (map fst jobs)) -> f' (log_path mode src) = Some (header ++ lines ms)).
Proof.
  intros M C IND H0 jobs. induction jobs as [|[src lk] jobs IH]; intros f f' l' outs x IN LK SAME H; cbn [convert_loop_log convert_loop_shown] in *.
  { exists []. split; [reflexivity|]. split; [reflexivity|]. intros [|k]; discriminate. }
  assert (Is : In src all) by (apply IN; now left). destruct (H0 src Is) as (FF & content & FS & B). destruct (SAME src Is) as (S1 & S2).
  destruct (LK src lk (or_introl eq_refl)) as (L & LG).
  assert (NI : inside (work_folder src mode) src = false) by (now apply (IND src src)).
  destruct (one_told tx mode ctl lk f src content M C L LG (eq_trans S1 FF) NI (eq_trans S2 FS) B) as (ms & LM & ONE).
  unfold convert_one_log in *. set (lk' := with_messages lk _) in *.
  destruct (convert_one mode (Some ctl) lk' f logger_init src) as [[f1 l1] [o|e]] eqn:O.
  2:{ exfalso. destruct (one_lucky mode ctl lk' f src content M C L (eq_trans S1 FF) NI (eq_trans S2 FS) B) as (g & st & E & _). congruence. }
  destruct (ONE f1 l1 o eq_refl) as (LF & st & -> & EM). clear ONE.
  pose proof (one_idle _ _ _ _ _ _ _ _ O) as ->.
  destruct (convert_loop_log tx mode (Some ctl) f1 logger_init jobs) as [[f2 l2] [os x2]] eqn:R.
  assert (f' = f2) as -> by congruence.
  destruct (IH f1 f2 l2 os x2 (fun y I => IN y (or_intror I)) (fun y k I => LK y k (or_intror I))) as (blocks & E & LEN & EACH); [|exact R|].
  { intros y Iy. destruct (SAME y Iy) as (Y1 & Y2). destruct (IND src y Is Iy) as (SEP & NIy).
    rewrite <- Y1, <- Y2. split; apply (one_outside _ _ _ _ _ _ _ _ _ O); [|exact NIy].
    destruct SEP as [->|(_ & Q & _)]; [apply inside_irrefl|exact Q]. }
  destruct (one_block tx ft lt _ _ _ _ _ _ _ _ O) as (oms & BL & M1 & _). specialize (M1 ltac:(discriminate)).
  change (lk_log lk') with (lk_log lk) in M1. rewrite LG in M1. subst oms.
  exists (convert_one_shown tx ft lt mode (Some ctl) lk' f logger_init src :: blocks).
  split; [cbn [concat]; now rewrite E|]. split; [cbn [length]; now rewrite LEN|]. intros k y N. destruct k as [|k]; cbn [map fst nth_error] in N |- *; [|exact (EACH k y N)].
  assert (y = src) as -> by congruence. exists content, ms. split; [exact FS|]. split; [exact LM|]. split.
  - rewrite (block_shows _ _ _ _ BL), EM. destruct st; reflexivity.
  - cbn [skipn]. intros NA. rewrite loop_told in R. rewrite (loop_outside _ _ _ _ _ _ _ (log_path mode src) R); [exact LF|].
    intros z q I.
    assert (Iz : In z (map fst jobs)) by (rewrite <- (told_sources tx mode (Some ctl) jobs f1 logger_init); apply (in_map fst _ _ I)).
    destruct (IND z src (IN z (or_intror Iz)) Is) as ([->|(Q1 & Q2 & Q3)] & _); [contradiction|].
    destruct (inside (work_folder z mode) (log_path mode src)) eqn:IY; [|reflexivity].
    destruct (inside_two _ _ _ IY (log_inside mode src)) as [Q|[Q|Q]]; congruence.
Qed.

Lemma dset_some {A B} (eqb : A -> A -> bool) (d : list (A * B)) k v : dset eqb d k v <> [].
Proof. destruct d as [|[k' v'] d]; cbn [dset]; [discriminate|]. destruct (eqb k k'); discriminate. Qed.
Lemma merge_some a b : i_sections a <> [] -> i_sections (merge a b) <> [].
Proof.
  unfold merge. cbn [i_sections]. generalize (i_sections b) (i_sections a). intros l. induction l as [|x l IH]; intros d N; [exact N|]. cbn [fold_left].
  apply IH, dset_some.
Qed.
Lemma zlen_zero {A} (l : list A) : negb (zlen l =? 0) = match l with [] => false | _ => true end.
Proof. destruct l; reflexivity. Qed.

(** What [init_from_file] leaves. *)
Lemma init_left kord d st r : init_from_file kord controls_init d = (st, r) -> r = Ok tt ->
  exists b, snd (read_ini controls_init d) = Ok b /\ ct_ini_ok st = b /\ (b = true -> i_sections (ct_ini st) <> []) /\
    (b = false -> pub_boxed st = None).
Proof.
  unfold init_from_file. destruct (read_ini controls_init d) as [st0 [b|e]] eqn:E; [|intros [= _ <-]; discriminate].
  assert (N : b = true -> i_sections (ct_ini st0) <> []).
  { intros ->. unfold read_ini in E. destruct d as [|i|i]; [| |congruence]; cbv zeta in E; rewrite zlen_zero in E; [cbn in E; congruence|].
    assert (X : i_sections (ct_ini st0) = i_sections (merge (ct_ini controls_init) i)) by (injection E as <- _; reflexivity). rewrite X.
    destruct (i_sections (merge (ct_ini controls_init) i)); [congruence|discriminate]. }
  assert (F : ct_json_ok st0 = false).
  { unfold read_ini in E. destruct d as [|i|i]; [| |congruence]; cbv zeta in E; injection E as <- _; reflexivity. }
  destruct b.
  - destruct (make_MARGO kord _) as [m|e]; [|intros [= _ <-]; discriminate]. destruct (make_JSON _) as [j|e]; [|intros [= _ <-]; discriminate].
    intros [= <- _] _. exists true. split; [reflexivity|]. destruct m, j; (split; [reflexivity|]; split; [intros _; exact (N eq_refl)|discriminate]).
  - intros [= <- _] _. exists false. split; [reflexivity|]. split; [reflexivity|]. split; [discriminate|]. intros _. unfold pub_boxed, flags. cbn. now rewrite F.
Qed.
Lemma user_read st u : i_sections (ct_ini st) <> [] -> match snd (read_ini st u) with Ok b => b = true | Err _ => True end.
Proof.
  intros N. unfold read_ini. destruct u as [|i|i]; cbn [snd]; [| |exact I]; rewrite zlen_zero.
  - destruct (i_sections (ct_ini st)); congruence.
  - pose proof (merge_some (ct_ini st) i N). destruct (i_sections (merge (ct_ini st) i)); congruence.
Qed.
Lemma read_user st name u : i_sections (ct_ini st) <> [] -> read_ini_shown st name u = [].
Proof. intros N. unfold read_ini_shown. pose proof (user_read st u N) as X. destruct (snd (read_ini st u)) as [b|]; [|reflexivity]. now subst b. Qed.

Lemma lacking_of tx cwd d args : exists absent, lacking cwd d args absent /\
  flat_map (fun a => let p := abspath cwd a in if isfile d p then [] else [Printed (tx_source tx p ++ ustr " is not a file.")]) args =
  map (fun p => Printed (tx_source tx p ++ ustr " is not a file.")) absent.
Proof.
  cbv zeta. induction args as [|a args (r & L & E)]; [exists []; split; [constructor|reflexivity]|]. cbn [flat_map]. rewrite E.
  pose proof (abspath_stands cwd a) as ST. unfold isfile. destruct (d (abspath cwd a)) eqn:K.
  - exists (abspath cwd a :: r). split; [apply (lacks_one _ _ a); [exact ST|congruence|exact L]|reflexivity].
  - exists r. split; [apply (lacks_not _ _ a _ _ _ ST K L)|reflexivity].
  - exists (abspath cwd a :: r). split; [apply (lacks_one _ _ a); [exact ST|congruence|exact L]|reflexivity].
Qed.

(** The command of C63 shows: the INI file it loads, the names that are not files, and for each
    source, in order, that it is being decoded, that folder and log have been made, and the
    serious lines of its log. *)
Theorem C64_command : forall tx repr ft lt kord cwd d ini typed lks f argv s srcs mode files ctl,
  says argv s srcs -> formats_known s -> Some mode = last_of Format s (Some "MARGO") ->
  existing cwd d srcs files -> (forall x p ns, srcs = [x] -> stands_for cwd x p -> d p <> KDir ns) -> same_disk d f ->
  main_controls kord (ini "defaults.ini") (option_map ini (last_of Ini s None)) = Ok (Some ctl) -> controls_ok (box_margo ctl) ->
  (forall n, lucky (lks n) /\ lk_log (lks n) = Some true) -> independent mode files ->
  (forall src content, In src files -> f (work_folder src mode) = None /\ (f src = Some content -> bytes_ok content)) ->
  exists f' outs absent blocks, program_log tx kord cwd d ini typed lks f argv = Ran f' outs None /\ lacking cwd d srcs absent /\
    program_shown tx repr ft lt kord cwd d ini typed lks f argv =
      match last_of Ini s None with Some name => [Printed (ustr "Loading controls from: " ++ ustr name)] | None => [] end ++
      map (fun p => Printed (tx_source tx p ++ ustr " is not a file.")) absent ++ concat blocks /\
    length blocks = length files /\
    forall k src, nth_error files k = Some src ->
      exists content ms, f src = Some content /\ log_messages mode (tx_source tx src) content ms /\
        nth_error blocks k = Some (heading (tx_source tx src) ++
          [Printed (ustr "Created work folder."); Printed (ustr "New log file was created.")] ++ map Logged (filter serious ms)) /\
        (~ In src (skipn (S k) files) -> f' (work_folder src mode ++ [log_file_name src]) = Some (header ++ lines ms)).
Proof.
  intros tx repr ft lt kord cwd d ini typed lks f argv s srcs mode files ctl SY FK MD EX ND SD MC C LK IND H0.
  destruct (C63_command tx kord cwd d ini typed lks f argv s srcs mode files ctl SY FK MD EX ND SD MC C LK IND H0) as (f' & outs & R & LEN & OUT & PR).
  destruct (lacking_of tx cwd d srcs) as (absent & LA & EA).
  unfold program_log, program_shown in *. change DEFAULT_CONFIG with "defaults.ini" in *.
  destruct (init_from_file kord controls_init (ini "defaults.ini")) as [st r] eqn:IF. cbn [snd] in R.
  destruct r as [u|e]; [|congruence]. destruct u. destruct (init_left kord _ _ _ IF eq_refl) as (b & RB & B1 & B2 & B3).
  destruct (C59_complete argv s srcs SY FK) as (n & A & (U1 & U2 & U3 & U4)). destruct n as [m u' ext so]. cbn [n_format n_ini n_ext n_source] in *. subst so u'.
  assert (m = mode) as -> by congruence. rewrite A in R |- *.
  assert (BT : b = true).
  { destruct b; [reflexivity|]. exfalso. specialize (B3 eq_refl). unfold main_controls in MC. rewrite IF in MC. cbn [bind] in MC.
    destruct (last_of Ini s None) as [name|]; cbn [option_map] in MC.
    - unfold update_from_file in MC. rewrite B1 in MC. cbn [negb] in MC. cbn [bind] in MC. rewrite B3 in MC. discriminate.
    - rewrite B3 in MC. discriminate. }
  rewrite BT in RB, B1, B2. clear B3. unfold read_ini_shown at 1. rewrite RB. cbn [app]. rewrite MC, B1.
  assert (FL : make_list_of_source_files cwd d srcs ext typed = files).
  { rewrite (existing_unique _ _ _ _ EX). apply existing_unique. apply C53_listed. intros x p Ex ST ns. exact (ND x p ns Ex ST). }
  assert (SD' : src_is_dir cwd d srcs = false).
  { unfold src_is_dir. destruct srcs as [|a [|a' r]]; try reflexivity. unfold isdir. cbn [zlen length hd].
    destruct (d (abspath cwd a)) eqn:E; try apply andb_false_r. elim (ND a (abspath cwd a) names eq_refl (abspath_stands cwd a) E). }
  rewrite FL in *. set (jobs := combine files (map lks (seq 0 (length files)))) in *.
  assert (MJ : map fst jobs = files) by (apply map_fst_combine; rewrite map_length, seq_length; reflexivity).
  unfold main_log in R. rewrite MC in R.
  destruct (convert_loop_log tx mode (Some ctl) f logger_init jobs) as [[f2 l2] [o2 x2]] eqn:ML.
  assert (f2 = f') as -> by congruence.
  assert (Z1 : forall y, In y files -> f (work_folder y mode) = None /\ exists cy, f y = Some cy /\ bytes_ok cy).
  { intros y Iy. destruct (PR y Iy) as (cy & Fy & _). destruct (H0 y cy Iy) as (N & BB). split; [exact N|]. exists cy. auto. }
  assert (Z2 : incl (map fst jobs) files) by (rewrite MJ; apply incl_refl).
  assert (Z3 : forall y k, In (y, k) jobs -> lucky k /\ lk_log k = Some true).
  { intros y k Iy. apply in_combine_r in Iy. apply in_map_iff in Iy as (q & <- & _). apply LK. }
  destruct (loop_seen tx ft lt mode ctl files f (proj1 (C59_format _ _ A)) C IND Z1 jobs f f' l2 o2 x2 Z2 Z3 (fun y _ => conj eq_refl eq_refl) ML)
    as (blocks & EB & LB & EACH).
  exists f', outs, absent, blocks. split; [cbn [snd]; unfold main_log; rewrite MC, ML; exact R|]. split; [exact LA|]. split; [|split].
  - unfold sources_shown. rewrite SD', EA, EB. cbn [app]. destruct (last_of Ini s None) as [name|]; [|reflexivity]. rewrite (read_user st name _ (B2 eq_refl)). reflexivity.
  - rewrite LB, <- MJ, map_length. reflexivity.
  - rewrite MJ in EACH. exact EACH.
Qed.
Print Assumptions C64_command.

(** A case: the command of C63_nonvacuous. *)
Example C64_command_nonvacuous :
  program_shown plain_texts shown_path (fun _ => []) (fun _ => []) PropertiesControls.ident ["d"] d_disk shipped_ini [] (fun _ => sample_luck []) sample_fs
    ["a.rtcm3"; "x/../../d//b.rtcm3"; "nothing"; "--output=JARGO"] =
  map Printed (map ustr ["/d/nothing is not a file."; "--------------------------------------------------------------------------------";
    "Started decoding: /d/a.rtcm3"; "Created work folder."; "New log file was created."]) ++
  map (fun t => Logged (LCritical, ustr t)) ["100.00%, 1 messages, prs-dec-prnt errors 0-0-0."; "Finished without errors."] ++
  map Printed (map ustr ["--------------------------------------------------------------------------------";
    "Started decoding: /d/b.rtcm3"; "Created work folder."; "New log file was created."]) ++
  map (fun t => Logged (LCritical, ustr t)) ["100.00%, 1 messages, prs-dec-prnt errors 0-0-0."; "Finished without errors."].
Proof. vm_compute. reflexivity. Qed.

(** ** C65 *)
Lemma sections_merged i : i_sections (merge ini_empty i) = [] <-> i_sections i = [].
Proof.
  unfold merge. cbn [i_sections ini_empty]. destruct (i_sections i) as [|x l]; [tauto|]. split; [|discriminate]. cbn [fold_left]. intros H. exfalso.
  revert H. match goal with |- fold_left ?g l (dset ?e ?d ?k ?v) = [] -> False => generalize (dset_some e d k v); generalize (dset e d k v) end.
  induction l as [|y l IH]; intros d N H; [contradiction|]. cbn [fold_left] in H. revert H. apply IH, dset_some.
Qed.
Lemma read_defaults d : read_ini_shown controls_init "defaults.ini" d = [complaint "defaults.ini"] /\ says_nothing d \/
  read_ini_shown controls_init "defaults.ini" d = [] /\ ~ says_nothing d.
Proof.
  unfold read_ini_shown, read_ini. destruct d as [|i|i]; cbv zeta; cbn [snd says_nothing]; [left; split; [reflexivity|exact I]| |right; tauto].
  rewrite zlen_zero. change (ct_ini controls_init) with ini_empty. pose proof (sections_merged i) as X.
  destruct (i_sections (merge ini_empty i)); [left|right]; (split; [reflexivity|]); [apply X; reflexivity|]. intros Y. apply X in Y. discriminate.
Qed.

Lemma not_complaint_end (a : text) r : Printed (a ++ ustr " is not a file.") = complaint r -> False.
Proof.
  unfold complaint. intros E. apply (f_equal (fun x => match x with Printed t => nth 1 (rev t) 0 | _ => 0 end)) in E. cbv beta iota in E.
  rewrite !rev_app_distr in E. vm_compute in E. discriminate.
Qed.
Lemma sources_no_complaint tx repr cwd d args ext typed r x :
  hd_error (sources_shown tx repr cwd d args ext typed ++ r) = Some x -> x = complaint "defaults.ini" -> hd_error r = Some x.
Proof.
  unfold sources_shown. intros H ->. destruct (src_is_dir cwd d args).
  - cbv zeta in H. destruct (SourcesModel.shown d (abspath cwd (hd "" args)) ext); cbn [app hd_error] in H; discriminate.
  - cbv zeta in H. induction args as [|a args IH]; [exact H|]. cbn [flat_map] in H. destruct (isfile d (abspath cwd a)); [exact (IH H)|].
    cbn [app hd_error] in H. apply (f_equal (fun o => match o with Some y => y | None => complaint "" end)) in H. destruct (not_complaint_end _ _ H).
Qed.
Lemma loop_no_complaint tx ft lt mode ctl jobs f l : hd_error (convert_loop_shown tx ft lt mode ctl f l jobs) = Some (complaint "defaults.ini") -> False.
Proof.
  destruct jobs as [|[src lk] jobs]; cbn [convert_loop_shown]; [discriminate|]. unfold convert_one_shown.
  destruct (create_work_folder mode lk f src) as [? []]; discriminate.
Qed.

(** The first line says that defaults.ini is corrupted or empty exactly if there is no such file
    or it has no section. *)
Theorem C65_defaults : forall tx repr ft lt kord cwd d ini typed lks f argv,
  hd_error (program_shown tx repr ft lt kord cwd d ini typed lks f argv) = Some (complaint "defaults.ini") <-> says_nothing (ini "defaults.ini").
Proof.
  intros. unfold program_shown. change DEFAULT_CONFIG with "defaults.ini".
  destruct (init_from_file kord controls_init (ini "defaults.ini")) as [st r] eqn:IF.
  destruct (read_defaults (ini "defaults.ini")) as [(E & S)|(E & S)]; rewrite E; [split; [intros _; exact S|intros _; reflexivity]|].
  cbn [app]. split; [|tauto]. intros H. exfalso.
  destruct r as [u|e]; [|discriminate]. destruct (parse_args argv) as [[mode u' ext [srcs|]]| | |]; try discriminate.
  destruct u' as [name|]; [cbn [app hd_error] in H; discriminate|]. cbn [app] in H.
  destruct (main_controls kord (ini "defaults.ini") (option_map ini None)) as [ctl|e]; [|discriminate]. cbv zeta in H.
  apply sources_no_complaint in H; [|reflexivity]. exact (loop_no_complaint _ _ _ _ _ _ _ _ H).
Qed.
Print Assumptions C65_defaults.

(** Then there are no controls, whatever file is named with -i. *)
Theorem C65_no_controls : forall kord defaults user ctl, says_nothing defaults -> main_controls kord defaults user = Ok ctl -> ctl = None.
Proof.
  intros kord defaults user ctl S M. unfold main_controls, init_from_file in M.
  assert (R : read_ini controls_init defaults = (fst (read_ini controls_init defaults), Ok false) /\ ct_json_ok (fst (read_ini controls_init defaults)) = false).
  { destruct defaults as [|i|i]; [split; reflexivity| |contradiction]. cbn [says_nothing] in S. unfold read_ini. cbv zeta. rewrite zlen_zero.
    change (ct_ini controls_init) with ini_empty. rewrite (proj2 (sections_merged i) S). split; reflexivity. }
  destruct R as (R & J). rewrite R in M. cbv zeta in M. destruct (read_ini controls_init defaults) as [st r']. cbn [fst] in *.
  cbn [bind] in M. destruct user as [u|]; unfold update_from_file in M; cbn [ct_ini_ok flags negb bind] in M; unfold pub_boxed in M; cbn [ct_json_ok ct_margo_ok flags] in M; rewrite J in M;
  rewrite ?andb_false_r in M; cbn in M; congruence.
Qed.
Print Assumptions C65_no_controls.

(** A file of -i that does not exist changes nothing but one line, which says that it is loaded. *)
Lemma missing_user kord d : main_controls kord d (Some Missing) = main_controls kord d None.
Proof.
  unfold main_controls, init_from_file. cbv zeta. destruct (read_ini controls_init d) as [st0 [[]|e]] eqn:E; [| |reflexivity].
  2:{ cbn [bind]. unfold update_from_file. cbn [ct_ini_ok flags negb]. reflexivity. }
  destruct (make_MARGO kord (flags st0 true (ct_margo_ok st0) (ct_json_ok st0))) as [m|e] eqn:MM; [|reflexivity].
  destruct (make_JSON _) as [j|e] eqn:MJ; [|reflexivity]. cbn [bind].
  assert (N : i_sections (ct_ini st0) <> []).
  { unfold read_ini in E. destruct d as [|i|i]; [| |congruence]; cbv zeta in E; rewrite zlen_zero in E; [cbn in E; congruence|].
    assert (X : i_sections (ct_ini st0) = i_sections (merge (ct_ini controls_init) i)) by (injection E as <- _; reflexivity). rewrite X.
    destruct (i_sections (merge (ct_ini controls_init) i)); [congruence|discriminate]. }
  set (st1 := flags _ _ _ (is_some j)).
  assert (I1 : ct_ini st1 = ct_ini st0 /\ ct_ini_ok st1 = true /\ ct_margo_ok st1 = is_some m /\ ct_json_ok st1 = is_some j)
    by (subst st1; destruct m, j; repeat split).
  destruct I1 as (I1 & I2 & I3 & I4). unfold update_from_file. rewrite I2. cbn [negb]. unfold read_ini at 1. rewrite I1, zlen_zero.
  destruct (i_sections (ct_ini st0)) eqn:S; [contradiction|].
  assert (M1 : make_MARGO kord st1 = Ok m) by (rewrite <- MM; unfold make_MARGO; rewrite I1, I2; reflexivity).
  assert (J1 : forall x, make_JSON (set_margo st1 x) = Ok j).
  { intros x. rewrite <- MJ. unfold make_JSON. destruct x, m; cbn [set_margo ct_ini ct_ini_ok flags]; rewrite ?I1, ?I2; reflexivity. }
  rewrite I3. replace (if is_some m then make_MARGO kord st1 else Ok None) with (Ok (A := option margo_controls) m) by (destruct m; [exact (eq_sym M1)|reflexivity]).
  replace (ct_json_ok (set_margo st1 m)) with (is_some j) by (destruct m; exact (eq_sym I4)).
  replace (if is_some j then make_JSON (set_margo st1 m) else Ok None) with (Ok (A := option json_controls) j) by (destruct j; [exact (eq_sym (J1 m))|reflexivity]).
  cbn [bind]. subst st1. destruct m, j; reflexivity.
Qed.

Theorem C65_missing : forall tx repr ft lt kord cwd d ini typed lks f argv s argv' s' srcs name ctl,
  says argv s srcs -> formats_known s -> says argv' s' srcs -> formats_known s' ->
  last_of Ini s None = Some name -> last_of Ini s' None = None ->
  last_of Format s (Some "MARGO") = last_of Format s' (Some "MARGO") -> last_of Ext s (Some "rtcm3") = last_of Ext s' (Some "rtcm3") ->
  ini name = Missing -> ~ says_nothing (ini "defaults.ini") -> main_controls kord (ini "defaults.ini") None = Ok ctl ->
  program_log tx kord cwd d ini typed lks f argv = program_log tx kord cwd d ini typed lks f argv' /\
  program_shown tx repr ft lt kord cwd d ini typed lks f argv =
    Printed (ustr "Loading controls from: " ++ ustr name) :: program_shown tx repr ft lt kord cwd d ini typed lks f argv'.
Proof.
  intros tx repr ft lt kord cwd d ini typed lks f argv s argv' s' srcs name ctl SY FK SY' FK' I1 I2 F12 X12 MI SN MC.
  destruct (C59_complete argv s srcs SY FK) as ([m u ext so] & A & (U1 & U2 & U3 & U4)).
  destruct (C59_complete argv' s' srcs SY' FK') as ([m' u' ext' so'] & A' & (U1' & U2' & U3' & U4')). cbn [n_format n_ini n_ext n_source] in *.
  assert (m' = m) as -> by congruence. assert (ext' = ext) as -> by congruence. subst so so'. rewrite I1 in U2. rewrite I2 in U2'. subst u u'.
  unfold program_log, program_shown. change DEFAULT_CONFIG with "defaults.ini". rewrite A, A'. cbn [option_map]. rewrite MI.
  pose proof (missing_user kord (ini "defaults.ini")) as MU.
  destruct (init_from_file kord controls_init (ini "defaults.ini")) as [st r] eqn:IF. cbn [snd].
  destruct (read_defaults (ini "defaults.ini")) as [(E & S)|(E & S)]; [contradiction|]. rewrite E. cbn [app].
  destruct r as [[]|e].
  2:{ exfalso. unfold main_controls in MC. rewrite IF in MC. cbn [bind] in MC. discriminate. }
  unfold main_log. rewrite MU, MC. split; [reflexivity|].
  destruct (init_left kord _ _ _ IF eq_refl) as (b & RB & B1 & B2 & _).
  assert (BT : b = true).
  { destruct b; [reflexivity|]. unfold read_ini_shown in E. rewrite RB in E. discriminate. }
  rewrite BT in B1, B2. rewrite B1. rewrite (read_user st name Missing (B2 eq_refl)). reflexivity.
Qed.
Print Assumptions C65_missing.

(** So a mistyped name of an INI file is not noticed: the shipped defaults are used and all that
    is shown is success. *)
Theorem C65_user_refuted : exists ini argv s srcs name, says argv s srcs /\ last_of Ini s None = Some name /\ ini name = Missing /\
  program_shown plain_texts shown_path (fun _ => []) (fun _ => []) PropertiesControls.ident ["d"] d_disk ini [] (fun _ => sample_luck []) sample_fs argv =
  map Printed (map ustr ["Loading controls from: my.ini"; "--------------------------------------------------------------------------------";
    "Started decoding: /d/a.rtcm3"; "Created work folder."; "New log file was created."]) ++
  map (fun t => Logged (LCritical, ustr t)) ["100.00%, 1 messages, prs-dec-prnt errors 0-0-0."; "Finished without errors."].
Proof.
  exists shipped_ini, ["-i"; "my.ini"; "-o"; "JSON"; "a.rtcm3"]. 
  assert (X : parse_args ["-i"; "my.ini"; "-o"; "JSON"; "a.rtcm3"] = Accepted {| n_format := "JSON"; n_ini := Some "my.ini"; n_ext := "rtcm3"; n_source := Some ["a.rtcm3"] |}) by (vm_compute; reflexivity).
  apply C59_exact in X as (s & srcs & SY & _ & (_ & U & _)). exists s, srcs, "my.ini". split; [exact SY|]. split; [exact (eq_sym U)|].
  split; [reflexivity|]. vm_compute. reflexivity.
Qed.
Print Assumptions C65_user_refuted.

(** Cases of C65_defaults: no file at all, and a file without sections. *)
Example C65_nonvacuous :
  program_shown plain_texts shown_path (fun _ => []) (fun _ => []) PropertiesControls.ident ["d"] d_disk (fun _ => Missing) [] (fun _ => sample_luck []) sample_fs ["a.rtcm3"] =
  map Printed (map ustr ["INI file defaults.ini is corrupted or empty."; "--------------------------------------------------------------------------------";
    "Started decoding: /d/a.rtcm3"; "Created work folder."; "New log file was created."]) ++
  [Logged (LError, ustr "Conversion aborted. No valid controls.")] /\
  says_nothing (parse_ini (ustr "; nothing yet")) /\ ~ says_nothing (parse_ini (ustr "[JSON]")).
Proof. split; [vm_compute; reflexivity|]. vm_compute. split; [reflexivity|discriminate]. Qed.
