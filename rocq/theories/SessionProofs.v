(** * SessionProofs: lemmas about logger and loop. *)
From Coq Require Import Permutation.
From Verif Require Import PyBase PyDict PyFloat PyVal BitsModel FramerSpec DecoderModel MsmModel MargoModel JsonModel PrinterModel PrinterSpec PrinterProofs MargoSpec MargoFiles
  MainModel MainSpec MainProofs PropertiesMain PropertiesFiles ControlsModel ControlsSpec SessionModel SessionSpec.
Local Open Scope string_scope.
Local Open Scope list_scope.
Local Open Scope Z_scope.

Definition idle (l : logger) : Prop := l = logger_init.
Definition writing (file : path) : logger := {| lg_files := [file]; lg_ready := true |}.

Lemma path_eqb_refl p : path_eqb p p = true.
Proof. now apply path_eqb_spec. Qed.
Lemma path_eqb_neq p q : p <> q -> path_eqb p q = false.
Proof. intros N. destruct (path_eqb p q) eqn:E; [|reflexivity]. apply path_eqb_spec in E. contradiction. Qed.

(** Messages go to the file of the logger and to no other. *)
Lemma log_idle m f : log logger_init m f = f.
Proof. reflexivity. Qed.
Lemma log_all_idle ms f : log_all logger_init ms f = f.
Proof. unfold log_all. induction ms as [|m ms IH]; [reflexivity|exact IH]. Qed.
Lemma lines_app a b : lines (a ++ b) = lines a ++ lines b.
Proof. apply flat_map_app. Qed.
Lemma log_other file m f p : p <> file -> log (writing file) m f p = f p.
Proof.
  intros N. unfold log. cbn [writing lg_ready lg_files fold_left]. destruct (to_file (fst m)); [|reflexivity].
  unfold append_to. cbn [existsb]. now rewrite (path_eqb_neq _ _ N).
Qed.
Lemma log_here file m f : log (writing file) m f file = option_map (fun c => c ++ lines [m]) (f file).
Proof.
  unfold log. cbn [writing lg_ready lg_files fold_left lines flat_map]. unfold append_to, log_line. destruct m as [[] t]; cbn [to_file fst snd level_name existsb];
    rewrite ?path_eqb_refl; cbn [orb]; destruct (f file); cbn [option_map]; rewrite ?app_nil_r; reflexivity.
Qed.
Lemma log_all_other file ms : forall f p, p <> file -> log_all (writing file) ms f p = f p.
Proof.
  unfold log_all. induction ms as [|m ms IH]; intros f p N; [reflexivity|]. cbn [fold_left]. rewrite (IH _ _ N). now apply log_other.
Qed.
Lemma log_all_here file ms : forall f, log_all (writing file) ms f file = option_map (fun c => c ++ lines ms) (f file).
Proof.
  unfold log_all. induction ms as [|m ms IH]; intros f; cbn [fold_left].
  - destruct (f file); cbn; now rewrite ?app_nil_r.
  - rewrite IH, log_here. destruct (f file) as [c|]; [|reflexivity]. cbn [option_map]. f_equal. rewrite <- app_assoc. f_equal.
    change (m :: ms) with ([m] ++ ms). now rewrite lines_app.
Qed.

(** The logger while a source is converted. *)
Definition chosen (lk : luck) (file : path) : logger := match lk_log lk with Some true => writing file | _ => logger_init end.
Definition begun (lk : luck) (file : path) (f : fs) : fs := match lk_log lk with Some true => fs_set f file welcome | _ => f end.
Lemma init_idle lk f file : lk_log lk <> None -> init_logger lk f logger_init file = (begun lk file f, chosen lk file, Ok tt).
Proof. unfold init_logger, begun, chosen. destruct (lk_log lk) as [[]|]; [reflexivity|reflexivity|congruence]. Qed.
Lemma deinit_chosen lk file : deinit (chosen lk file) = logger_init.
Proof. unfold chosen. destruct (lk_log lk) as [[]|]; reflexivity. Qed.
Lemma chosen_other lk file m f p : p <> file -> log (chosen lk file) m f p = f p.
Proof. intros N. unfold chosen. destruct (lk_log lk) as [[]|]; [now apply log_other|reflexivity|reflexivity]. Qed.
Lemma chosen_all_other lk file ms f p : p <> file -> log_all (chosen lk file) ms f p = f p.
Proof. intros N. unfold chosen. destruct (lk_log lk) as [[]|]; [now apply log_all_other|now rewrite log_all_idle|now rewrite log_all_idle]. Qed.
Lemma begun_other lk file f p : p <> file -> begun lk file f p = f p.
Proof. intros N. unfold begun. destruct (lk_log lk) as [[]|]; try reflexivity. unfold fs_set. now rewrite (path_eqb_neq _ _ N). Qed.

Lemma log_inside mode src : inside (work_folder src mode) (log_path mode src) = true.
Proof. apply inside_spec. exists [log_file_name src]. split; [discriminate|reflexivity]. Qed.
Lemma not_log mode src p : inside (work_folder src mode) p = false -> p <> log_path mode src.
Proof. intros H ->. rewrite log_inside in H. discriminate. Qed.

(** One conversion, from an idle logger. *)
Lemma one_cases mode ctl lk f src f' l' r : convert_one mode ctl lk f logger_init src = (f', l', r) ->
  (r = Ok NoFolder /\ l' = logger_init /\ (forall p, inside (work_folder src mode) p = false -> f' p = f p)) \/
  (r = Err EOS /\ l' = logger_init /\ lk_log lk = None /\ (forall p, inside (work_folder src mode) p = false -> f' p = f p)) \/
  (lk_log lk <> None /\ f (work_folder src mode) = None /\ lk_rmtree lk = None /\ lk_mkdir lk = true /\
   let f1 := begun lk (log_path mode src) (rmtree (work_folder src mode) f) in
   let l1 := chosen lk (log_path mode src) in
   match ctl with
   | None => r = Ok NoControls /\ l' = logger_init /\ f' = log l1 no_controls_message f1
   | Some ctl =>
       match factory mode true (lk_os lk) ctl with
       | Err e => r = Err e /\ l' = l1 /\ f' = log_all l1 (lk_messages lk) f1
       | Ok None => r = Ok NoConverter /\ l' = logger_init /\ f' = log l1 no_converter_message (log_all l1 (lk_messages lk) f1)
       | Ok (Some c) => exists s d,
           decode_rtcm_file (lk_ord lk) (lk_faults lk)
             (match f1 src with Some content => regular_file content | None => None end) (started c) = (s, d) /\
           let f2 := log_all l1 (lk_messages lk) (put (work_folder src mode) (output_files (r_world s)) f1) in
           match d with
           | Err e => r = Err e /\ l' = l1 /\ f' = f2
           | Ok b => let st := closing b (get_statistics (r_conv s)) in
                     r = Ok (Finished st) /\ l' = logger_init /\ f' = log l1 (closing_message st) f2
           end
       end
   end).
Proof.
  unfold convert_one, create_work_folder. destruct (f (work_folder src mode)) eqn:FF.
  - intros H. left. assert (f' = f /\ l' = logger_init /\ r = Ok NoFolder) as (-> & -> & ->) by (repeat split; congruence). auto.
  - destruct (lk_rmtree lk) as [keep|].
    + intros H. left. assert (l' = logger_init /\ r = Ok NoFolder) as (-> & ->) by (split; congruence).
      split; [reflexivity|]. split; [reflexivity|]. intros p N.
      assert (f' = (fun p => if inside (work_folder src mode) p && negb (keep p) then None else f p)) as -> by congruence. now rewrite N.
    + destruct (lk_mkdir lk).
      2:{ intros H. left. assert (f' = rmtree (work_folder src mode) f /\ l' = logger_init /\ r = Ok NoFolder) as (-> & -> & ->) by (repeat split; congruence).
          split; [reflexivity|]. split; [reflexivity|]. intros p N. unfold rmtree. now rewrite N. }
      destruct (lk_log lk) as [b|] eqn:LK.
      2:{ unfold init_logger. rewrite LK. intros H. right. left.
          assert (r = Err EOS /\ l' = logger_init) as (-> & ->) by (split; congruence). split; [reflexivity|]. split; [reflexivity|]. split; [reflexivity|].
          intros p N. assert (f' = fs_set (rmtree (work_folder src mode) f) (log_path mode src) []) as -> by congruence.
          unfold fs_set, rmtree. now rewrite (path_eqb_neq _ _ (not_log _ _ _ N)), N. }
      rewrite (init_idle lk) by congruence. intros H. right. right. split; [discriminate|]. repeat (split; [reflexivity|]). cbv zeta.
      destruct ctl as [ctl|]; [|rewrite deinit_chosen in H; repeat split; congruence].
      destruct (factory mode true (lk_os lk) ctl) as [[c|]|e]; [|rewrite deinit_chosen in H; repeat split; congruence|repeat split; congruence].
      destruct (decode_rtcm_file _ _ _ _) as [s [b'|e]]; exists s; eexists; (split; [reflexivity|]); cbv beta iota zeta; [rewrite deinit_chosen in H|]; repeat split; congruence.
Qed.

(** Idle again after each source, unless an exception ends the loop. *)
Lemma one_idle mode ctl lk f src f' l' o : convert_one mode ctl lk f logger_init src = (f', l', Ok o) -> l' = logger_init.
Proof.
  intros H. apply one_cases in H. destruct H as [(_ & -> & _)|[(? & _)|(_ & _ & _ & _ & H)]]; [reflexivity|discriminate|].
  cbv zeta in H. destruct ctl as [ctl|]; [|destruct H as (_ & H & _); exact H].
  destruct (factory _ _ _ _) as [[c|]|e]; [|destruct H as (_ & H & _); exact H|destruct H; discriminate].
  destruct H as (s & [b|e] & _ & H); [destruct H as (_ & H & _); exact H|destruct H; discriminate].
Qed.

(** Nothing outside the work folder is touched. *)
Lemma one_outside mode ctl lk f src f' l' r p : convert_one mode ctl lk f logger_init src = (f', l', r) ->
  inside (work_folder src mode) p = false -> f' p = f p.
Proof.
  intros H N. pose proof (not_log _ _ _ N) as NL. apply one_cases in H.
  destruct H as [(_ & _ & H)|[(_ & _ & _ & H)|(_ & _ & _ & _ & H)]]; [auto|auto|]. cbv zeta in H.
  assert (B : begun lk (log_path mode src) (rmtree (work_folder src mode) f) p = f p) by (rewrite (begun_other _ _ _ _ NL); unfold rmtree; now rewrite N).
  destruct ctl as [ctl|].
  2:{ destruct H as (_ & _ & ->). now rewrite (chosen_other _ _ _ _ _ NL). }
  destruct (factory _ _ _ _) as [[c|]|e].
  - destruct H as (s & [b|e] & _ & H).
    + destruct H as (_ & _ & ->). rewrite (chosen_other _ _ _ _ _ NL), (chosen_all_other _ _ _ _ _ NL). unfold put. now rewrite N.
    + destruct H as (_ & _ & ->). rewrite (chosen_all_other _ _ _ _ _ NL). unfold put. now rewrite N.
  - destruct H as (_ & _ & ->). now rewrite (chosen_other _ _ _ _ _ NL), (chosen_all_other _ _ _ _ _ NL).
  - destruct H as (_ & _ & ->). now rewrite (chosen_all_other _ _ _ _ _ NL).
Qed.

Lemma put_log mode src files f : put (work_folder src mode) files f (log_path mode src) = f (log_path mode src).
Proof.
  unfold put. rewrite log_inside. unfold log_path at 1. rewrite skipn_app, skipn_all, Nat.sub_diag. reflexivity.
Qed.
(** The log of a source that was begun. *)
Lemma one_log mode ctl lk f src f' l' o : convert_one mode ctl lk f logger_init src = (f', l', Ok o) ->
  lk_log lk = Some true -> o <> NoFolder -> f' (log_path mode src) = Some (whole_log (lk_messages lk) o).
Proof.
  intros H LK NF. apply one_cases in H. destruct H as [(E & _)|[(E & _)|(_ & _ & _ & _ & H)]]; [congruence|discriminate|]. cbv zeta in H.
  assert (C : chosen lk (log_path mode src) = writing (log_path mode src)) by (unfold chosen; now rewrite LK).
  assert (B : begun lk (log_path mode src) (rmtree (work_folder src mode) f) (log_path mode src) = Some header).
  { unfold begun. rewrite LK. unfold fs_set. rewrite path_eqb_refl. reflexivity. }
  rewrite C in H. destruct ctl as [ctl|].
  2:{ destruct H as (E & _ & ->). replace o with NoControls by congruence. rewrite log_here, B. reflexivity. }
  destruct (factory _ _ _ _) as [[c|]|e]; [| |destruct H; discriminate].
  - destruct H as (s & [b|e] & _ & H); [|destruct H; discriminate]. cbv zeta in H. destruct H as (E & _ & ->).
    replace o with (Finished (closing b (get_statistics (r_conv s)))) by congruence.
    rewrite log_here, log_all_here, put_log, B. cbn [option_map]. unfold whole_log. destruct (closing b (get_statistics (r_conv s))); rewrite lines_app, <- app_assoc; reflexivity.
  - destruct H as (E & _ & ->). replace o with NoConverter by congruence. rewrite log_here, log_all_here, B. cbn [option_map]. unfold whole_log.
    rewrite lines_app, <- app_assoc. reflexivity.
Qed.

(** The loop. *)
Lemma loop_app mode ctl a b f l : convert_loop mode ctl f l (a ++ b) =
  let '(f1, l1, (o1, x1)) := convert_loop mode ctl f l a in
  match x1 with
  | Some e => (f1, l1, (o1, Some e))
  | None => let '(f2, l2, (o2, x2)) := convert_loop mode ctl f1 l1 b in (f2, l2, (o1 ++ o2, x2))
  end.
Proof.
  revert f l. induction a as [|[src lk] a IH]; intros f l; cbn [app convert_loop].
  - destruct (convert_loop mode ctl f l b) as [[f2 l2] [o2 x2]]. reflexivity.
  - destruct (convert_one mode ctl lk f l src) as [[f1 l1] [o|e]]; [|reflexivity]. rewrite IH.
    destruct (convert_loop mode ctl f1 l1 a) as [[f3 l3] [o3 [e|]]]; [reflexivity|].
    destruct (convert_loop mode ctl f3 l3 b) as [[f4 l4] [o4 x4]]. reflexivity.
Qed.
Lemma loop_idle mode ctl jobs : forall f f' l' outs, convert_loop mode ctl f logger_init jobs = (f', l', (outs, None)) ->
  l' = logger_init /\ length outs = length jobs.
Proof.
  induction jobs as [|[src lk] jobs IH]; intros f f' l' outs H; cbn [convert_loop] in H; [split; [congruence|replace outs with (@nil outcome) by congruence; reflexivity]|].
  destruct (convert_one mode ctl lk f logger_init src) as [[f1 l1] [o|e]] eqn:O; [|congruence].
  rewrite (one_idle _ _ _ _ _ _ _ _ O) in H. destruct (convert_loop mode ctl f1 logger_init jobs) as [[f2 l2] [o2 x2]] eqn:R.
  assert (f' = f2 /\ l' = l2 /\ outs = o :: o2 /\ x2 = None) as (-> & -> & -> & ->) by (repeat split; congruence).
  destruct (IH _ _ _ _ R) as (-> & L). split; [reflexivity|]. cbn [length]. now rewrite L.
Qed.
Lemma loop_outside mode ctl jobs : forall f f' l' ox p, convert_loop mode ctl f logger_init jobs = (f', l', ox) ->
  (forall y k, In (y, k) jobs -> inside (work_folder y mode) p = false) -> f' p = f p.
Proof.
  induction jobs as [|[src lk] jobs IH]; intros f f' l' ox p H N; cbn [convert_loop] in H; [replace f' with f by congruence; reflexivity|].
  pose proof (N src lk (or_introl eq_refl)) as Ns.
  destruct (convert_one mode ctl lk f logger_init src) as [[f1 l1] [o|e]] eqn:O.
  2:{ replace f' with f1 by congruence. exact (one_outside _ _ _ _ _ _ _ _ _ O Ns). }
  rewrite (one_idle _ _ _ _ _ _ _ _ O) in H. destruct (convert_loop mode ctl f1 logger_init jobs) as [[f2 l2] [o2 x2]] eqn:R.
  replace f' with f2 by congruence. rewrite (IH _ _ _ _ p R) by (intros y k I; apply (N y k); now right).
  exact (one_outside _ _ _ _ _ _ _ _ _ O Ns).
Qed.
(** The state when the loop reaches a source. *)
Lemma loop_at mode ctl before src lk after : forall f f' l' outs x o,
  convert_loop mode ctl f logger_init (before ++ (src, lk) :: after) = (f', l', (outs, x)) ->
  nth_error outs (length before) = Some o ->
  exists f1 outs1 f2 ox, convert_loop mode ctl f logger_init before = (f1, logger_init, (outs1, None)) /\
    convert_one mode ctl lk f1 logger_init src = (f2, logger_init, Ok o) /\
    convert_loop mode ctl f2 logger_init after = (f', l', ox).
Proof.
  intros f f' l' outs x o H N. rewrite loop_app in H.
  destruct (convert_loop mode ctl f logger_init before) as [[f1 l1] [o1 [e|]]] eqn:B.
  - assert (outs = o1) as -> by congruence. clear H. exfalso.
    assert (L : forall jobs f l f' l' outs e, convert_loop mode ctl f l jobs = (f', l', (outs, Some e)) -> (length outs < length jobs)%nat).
    { clear. induction jobs as [|[src lk] jobs IH]; intros f l f' l' outs e H; cbn [convert_loop] in H; [congruence|].
      destruct (convert_one mode ctl lk f l src) as [[f1 l1] [o|e1]]; [|replace outs with (@nil outcome) by congruence; cbn; lia].
      destruct (convert_loop mode ctl f1 l1 jobs) as [[f2 l2] [o2 x2]] eqn:R. assert (outs = o :: o2 /\ x2 = Some e) as (-> & ->) by (split; congruence).
      cbn [length]. apply IH in R. lia. }
    apply L in B. rewrite (proj2 (nth_error_None o1 (length before))) in N by lia. discriminate.
  - destruct (loop_idle _ _ _ _ _ _ _ B) as (-> & L1). cbn [convert_loop] in H.
    destruct (convert_one mode ctl lk f1 logger_init src) as [[f2 l2] [o'|e]] eqn:O.
    + pose proof (one_idle _ _ _ _ _ _ _ _ O) as ->. destruct (convert_loop mode ctl f2 logger_init after) as [[f3 l3] [o3 x3]] eqn:A.
      assert (outs = o1 ++ o' :: o3 /\ f' = f3 /\ l' = l3) as (-> & -> & ->) by (repeat split; congruence).
      rewrite nth_error_app2 in N by lia. rewrite L1, Nat.sub_diag in N. cbn in N. replace o with o' by congruence.
      exists f1, o1, f2, (o3, x3). auto.
    + assert (outs = o1) as -> by (rewrite <- (app_nil_r o1); congruence). rewrite (proj2 (nth_error_None o1 (length before))) in N by lia. discriminate.
Qed.
