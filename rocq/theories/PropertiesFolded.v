(** * PropertiesFolded: C58 for files whose values have several lines. *)
From Verif Require Import PyBase PyDict PyVal ControlsModel ControlsSpec ControlsProofs IniModel IniSpec IniProofs FoldedSpec.
Local Open Scope string_scope.
Local Open Scope list_scope.
Local Open Scope Z_scope.

Definition low (o : list (text * list text)) : raw_options := map (fun kv => (lower (fst kv), snd kv)) o.
Definition lows (s : folded_settings) : list (text * raw_options) := map (fun sec => (fst sec, low (snd sec))) s.
Definition fkeys (o : list (text * list text)) : list text := map (fun kv => lower (fst kv)) o.
Lemma low_keys o : map fst (low o) = fkeys o. Proof. unfold low, fkeys. rewrite map_map. reflexivity. Qed.
Lemma lows_names s : map fst (lows s) = map fst s. Proof. unfold lows. rewrite map_map. reflexivity. Qed.

(** The sections [d] have been read, and of the section [name] the options [o]; [opt] is the open option. *)
Definition reading (d : folded_settings) (name : text) (o : list (text * list text)) (opt : text) (st : reader) : Prop :=
  r_sections st = lows d ++ [(name, low o)] /\ r_defaults st = [] /\ r_error st = false /\ r_indent st = 0 /\
  r_section st = Some name /\ r_option st = opt /\
  (forall s k, In (s, k) (r_added st) -> In s (map fst d) \/ (s = name /\ In k (fkeys o))).

Lemma lower_nonempty k : k <> [] -> lower k <> [].
Proof. destruct k; [congruence|]. intros _. unfold lower. cbn [map]. discriminate. Qed.

Lemma head_first name l : name_ok name -> header_line name l ->
  exists st', read_line reader_init l = Some st' /\ reading [] name [] [] st'.
Proof.
  intros (NE & _ & ND) H. destruct (header_of_line _ _ NE H) as (c & r & E & C & HD & IL).
  unfold read_line. rewrite E, C. cbv iota. cbn [reader_init r_section]. rewrite HD, IL.
  unfold open_section. cbn [with_indent r_sections reader_init dget dset]. unfold DEFAULTSECT. rewrite (eqb_no _ _ ND).
  eexists. split; [reflexivity|]. repeat split; cbn [r_sections r_defaults r_error r_indent r_section r_option r_added r_heads with_indent reader_init]; auto.
Qed.
Lemma head_next d name o opt st name' l : name_ok name' -> ~ In name' (map fst (d ++ [(name, o)])) -> header_line name' l ->
  reading d name o opt st -> exists st', read_line st l = Some st' /\ reading (d ++ [(name, o)]) name' [] [] st'.
Proof.
  intros (NE & _ & ND) NN H (S & DF & ER & IL & SE & OP & AD).
  destruct (header_of_line _ _ NE H) as (c & r & E & C & HD & IL').
  unfold read_line. rewrite E, C. cbv iota. rewrite SE, IL, IL'. change (0 <? 0) with false.
  assert (SM : lows d ++ [(name, low o)] = lows (d ++ [(name, o)])) by (unfold lows; now rewrite map_app).
  assert (X : exists st', open_section (with_indent st 0) name' = Some st' /\ reading (d ++ [(name, o)]) name' [] [] st').
  { unfold open_section. cbn [with_indent r_sections]. rewrite S, SM.
    assert (NA : ~ In name' (map fst (lows (d ++ [(name, o)])))) by now rewrite lows_names.
    rewrite (proj2 (dget_None text_eqb text_eqb_spec _ _) NA). unfold DEFAULTSECT. rewrite (eqb_no _ _ ND), (dset_new _ _ _ NA).
    eexists. split; [reflexivity|]. repeat split; cbn [r_sections r_defaults r_error r_indent r_section r_option r_added r_heads with_indent]; auto.
    intros s k I. left. rewrite map_app. apply in_or_app. destruct (AD _ _ I) as [X|(-> & _)]; [now left|right; now left]. }
  destruct (r_option st); rewrite HD; exact X.
Qed.
Lemma opt_next d name o opt st k v l : name <> DEFAULTSECT -> ~ In name (map fst d) -> key_fine k -> value_fine v -> ~ In (lower k) (fkeys o) ->
  option_line k v l -> reading d name o opt st ->
  exists st', read_line st l = Some st' /\ reading d name (o ++ [(k, [v])]) (lower k) st'.
Proof.
  intros ND NN KF VF NK H (S & DF & ER & IL & SE & OP & AD).
  destruct (option_parts _ _ _ KF VF H) as (w1 & rest & c & r & E & CW & C91 & CM & SD & W1 & RS & IL').
  unfold read_line. rewrite E, CM. cbv iota. rewrite SE, IL, IL'. change (0 <? 0) with false.
  assert (HD : header_of (c :: r) = None) by (cbn [header_of]; now rewrite (proj2 (Z.eqb_neq c 91) C91)).
  destruct KF as (KN & _ & KT & _).
  assert (R1 : rstrip (k ++ w1) = k) by (apply rstrip_app; [exact W1|exact (proj2 KT)]).
  assert (R2 : rstrip k = k) by (rewrite <- (app_nil_r k) at 1; apply rstrip_app; [constructor|exact (proj2 KT)]).
  assert (NA : ~ In name (map fst (lows d))) by now rewrite lows_names.
  assert (X : exists st', set_option (with_indent st 0) name k rest = Some st' /\ reading d name (o ++ [(k, [v])]) (lower k) st').
  { unfold set_option. rewrite R2, RS. replace (match k with [] => with_error (with_indent st 0) | _ => with_indent st 0 end) with (with_indent st 0) by (now destruct k).
    destruct (existsb (pair_eqb (name, lower k)) (r_added (with_indent st 0))) eqn:EX.
    - exfalso. apply pair_existsb in EX. cbn [with_indent r_added] in EX. destruct (AD _ _ EX) as [Q|(_ & Q)]; tauto.
    - eexists. split; [reflexivity|]. unfold set_cursect, cursect. rewrite (eqb_no _ _ ND).
      cbn [with_indent r_sections r_defaults r_error r_indent r_section r_option r_added]. rewrite S, (dget_last _ _ _ NA), (dset_last _ _ _ _ NA).
      assert (NR : ~ In (lower k) (map fst (low o))) by now rewrite low_keys.
      rewrite (dset_new _ _ _ NR).
      repeat split; cbn [r_sections r_defaults r_error r_indent r_section r_option r_added r_heads]; auto.
      + unfold low. rewrite map_app. reflexivity.
      + intros s q [Q|I].
        * right. assert (s = name /\ q = lower k) as (-> & ->) by (split; congruence). split; [reflexivity|]. unfold fkeys. rewrite map_app. apply in_or_app. right. now left.
        * destruct (AD _ _ I) as [Y|(-> & Y)]; [now left|]. right. split; [reflexivity|]. unfold fkeys. rewrite map_app. apply in_or_app. now left. }
  destruct (r_option st); rewrite HD; cbn [with_indent r_section]; rewrite SE, SD, R1; exact X.
Qed.

(** A line is appended to the open option. *)
Lemma append_open d name o k vs st v : name <> DEFAULTSECT -> ~ In name (map fst d) -> ~ In (lower k) (fkeys o) ->
  reading d name (o ++ [(k, vs)]) (lower k) st -> reading d name (o ++ [(k, vs ++ [v])]) (lower k) (append_line st name (lower k) v).
Proof.
  intros ND NN NK (S & DF & ER & IL & SE & OP & AD).
  assert (NA : ~ In name (map fst (lows d))) by now rewrite lows_names.
  assert (NR : ~ In (lower k) (map fst (low o))) by now rewrite low_keys.
  assert (L : forall x, low (o ++ [(k, x)]) = low o ++ [(lower k, x)]) by (intros x; unfold low; now rewrite map_app).
  unfold append_line, set_cursect, cursect. rewrite (eqb_no _ _ ND), S, (dget_last _ _ _ NA), L, (dget_last _ _ _ NR), (dset_last _ _ _ _ NR).
  repeat split; cbn [r_sections r_defaults r_error r_indent r_section r_option r_added r_heads]; auto.
  - rewrite (dset_last _ _ _ _ NA), L. reflexivity.
  - intros s q I. destruct (AD _ _ I) as [Y|(-> & Y)]; [now left|]. right. split; [reflexivity|].
    unfold fkeys in *. rewrite map_app in *. exact Y.
Qed.
Lemma indent_white w r : all_white w -> w <> [] -> 0 < indent_of (w ++ r).
Proof.
  intros W N. destruct w as [|c w]; [congruence|]. apply Forall_cons_iff in W as (C & _). cbn [app indent_of].
  rewrite (proj2 (white_iff c) C). pose proof (indent_pos (w ++ r)). lia.
Qed.
Lemma value_read d name o k : name <> DEFAULTSECT -> ~ In name (map fst d) -> k <> [] -> ~ In (lower k) (fkeys o) ->
  forall vs ls, value_lines vs ls -> forall vs0 st, reading d name (o ++ [(k, vs0)]) (lower k) st ->
  exists st', read_lines st ls = (st', false) /\ reading d name (o ++ [(k, vs0 ++ vs)]) (lower k) st'.
Proof.
  intros ND NN KN NK. pose proof (lower_nonempty k KN) as LN.
  induction 1 as [|vs l ls W H IH|vs w c r ls W C H IH|vs w v w' ls WN W W' T (c & r & -> & C1 & C2) H IH]; intros vs0 st R.
  - exists st. rewrite app_nil_r. auto.
  - assert (E : read_line st l = Some (append_line st name (lower k) [])).
    { unfold read_line. rewrite (strip_white_only _ W). change (is_comment []) with false. cbv iota.
      destruct R as (_ & _ & _ & _ & SE & OP & _). rewrite SE, OP. destruct (lower k); [congruence|reflexivity]. }
    cbn [read_lines]. rewrite E. specialize (IH (vs0 ++ [[]]) _ (append_open _ _ _ _ _ _ [] ND NN NK R)). rewrite <- app_assoc in IH. exact IH.
  - assert (E : read_line st (w ++ c :: r) = Some st).
    { unfold read_line. destruct (idle_stripped (w ++ c :: r)) as [Q|Q]; [right; eauto 6| |].
      - exfalso. assert (CW : ~ white_char c) by (unfold white_char; lia).
        assert (X : exists a b, strip is_white (w ++ c :: r) = a :: b).
        { unfold strip. clear - W CW. induction w as [|x w IH]; cbn [app drop_while].
          - rewrite (white_no _ CW). cbn [rev]. rewrite <- (rev_involutive r). generalize (rev r) as q. intros q. rewrite rev_involutive.
            assert (Z : exists a b, rev (drop_while is_white (q ++ [c])) = a :: b).
            { induction q as [|y q IQ]; cbn [app drop_while]; [rewrite (white_no _ CW); exists c, []; reflexivity|].
              destruct (is_white y); [exact IQ|]. cbn [rev]. rewrite rev_app_distr. cbn [rev app]. eauto. }
            exact Z.
          - apply Forall_cons_iff in W as (X & W). rewrite (proj2 (white_iff x) X). now apply IH. }
        destruct X as (a & b & X). congruence.
      - rewrite Q. destruct R as (_ & _ & _ & _ & SE & OP & _). rewrite SE. destruct (r_option st); reflexivity. }
    cbn [read_lines]. rewrite E. now apply IH.
  - assert (E : read_line st (w ++ (c :: r) ++ w') = Some (append_line st name (lower k) (c :: r))).
    { unfold read_line. rewrite (strip_trimmed _ _ _ W W' T).
      assert (CM : is_comment (c :: r) = false) by (cbn [is_comment]; apply Bool.orb_false_iff; split; now apply Z.eqb_neq).
      rewrite CM. cbv iota. destruct R as (_ & _ & _ & IL & SE & OP & _). rewrite SE, OP, IL.
      rewrite (proj2 (Z.ltb_lt _ _) (indent_white w _ W WN)). destruct (lower k); [congruence|reflexivity]. }
    cbn [read_lines]. rewrite E. specialize (IH (vs0 ++ [c :: r]) _ (append_open _ _ _ _ _ _ (c :: r) ND NN NK R)). rewrite <- app_assoc in IH. exact IH.
Qed.
Definition keys_fine (o : list (text * list text)) : Prop := Forall (fun kv => key_fine (fst kv) /\ (forall v vs, snd kv = v :: vs -> value_fine v)) o.
Lemma folded_read d name : name <> DEFAULTSECT -> ~ In name (map fst d) -> forall o ls, folded_options o ls -> forall o0 opt st,
  NoDup (fkeys (o0 ++ o)) -> keys_fine o -> reading d name o0 opt st ->
  exists opt' st', read_lines st ls = (st', false) /\ reading d name (o0 ++ o) opt' st'.
Proof.
  intros ND NN. induction 1 as [|k v vs o l ls rest L V H IH]; intros o0 opt st NDK F R.
  - exists opt, st. rewrite app_nil_r. auto.
  - apply Forall_cons_iff in F. destruct F as ((KF & VF) & F). cbn [fst snd] in KF, VF. specialize (VF _ _ eq_refl).
    assert (NK : ~ In (lower k) (fkeys o0)).
    { unfold fkeys in *. rewrite map_app in NDK. cbn [map fst] in NDK. apply NoDup_remove_2 in NDK. intros X. apply NDK, in_or_app. now left. }
    destruct (opt_next _ _ _ _ _ _ _ _ ND NN KF VF NK L R) as (st1 & E & R1). cbn [read_lines]. rewrite E.
    destruct (value_read d name o0 k ND NN (proj1 KF) NK vs ls V [v] st1 R1) as (st2 & E2 & R2). rewrite read_lines_app, E2. cbv iota.
    cbn [app] in R2. specialize (IH (o0 ++ [(k, v :: vs)]) (lower k) st2). rewrite <- app_assoc in IH. cbn [app] in IH. now apply IH.
Qed.
(** White lines directly below a header change nothing. *)
Lemma idle_head d name st l : idle l -> reading d name [] [] st -> read_line st l = Some st.
Proof.
  intros I (_ & _ & _ & _ & SE & OP & _). unfold read_line. destruct (idle_stripped l I) as [E|E].
  - rewrite E, SE, OP. reflexivity.
  - rewrite E, SE, OP. reflexivity.
Qed.
Lemma idle_heads d name st ls : Forall idle ls -> reading d name [] [] st -> read_lines st ls = (st, false).
Proof. induction 1 as [|l ls I _ IH]; intros R; [reflexivity|]. cbn [read_lines]. rewrite (idle_head d name st l I R). auto. Qed.
Definition all_fine (s : folded_settings) : Prop :=
  Forall (fun sec => name_ok (fst sec) /\ NoDup (fkeys (snd sec)) /\ keys_fine (snd sec)) s.
Lemma rest_read s ls : folded_sections s ls -> forall d name o opt st, NoDup (map fst (d ++ (name, o) :: s)) -> all_fine s ->
  reading d name o opt st ->
  exists st', read_lines st ls = (st', false) /\ r_sections st' = lows (d ++ (name, o) :: s) /\ r_defaults st' = [] /\ r_error st' = false.
Proof.
  induction 1 as [|n1 o1 s l ls os rest L I O H IH]; intros d name o opt st ND F R.
  - exists st. split; [reflexivity|]. destruct R as (S & DF & ER & _). rewrite S. unfold lows. rewrite map_app. auto.
  - apply Forall_cons_iff in F. cbn [fst snd] in F. destruct F as ((NO1 & NK1 & F1) & F).
    replace (d ++ (name, o) :: (n1, o1) :: s) with ((d ++ [(name, o)]) ++ (n1, o1) :: s) in ND |- * by now rewrite <- app_assoc.
    assert (NN : ~ In n1 (map fst (d ++ [(name, o)]))).
    { rewrite map_app in ND. cbn [map fst] in ND. apply NoDup_remove_2 in ND. intros X; apply ND, in_or_app; now left. }
    destruct (head_next _ _ _ _ _ _ _ NO1 NN L R) as (st1 & E & R1). cbn [read_lines]. rewrite E.
    rewrite read_lines_app, (idle_heads _ _ _ _ I R1). cbv iota.
    destruct (folded_read _ _ (proj2 (proj2 NO1)) NN _ _ O [] [] st1 NK1 F1 R1) as (opt2 & st2 & E2 & R2). cbn [app] in R2.
    rewrite read_lines_app, E2. cbv iota. exact (IH _ _ _ _ _ ND F R2).
Qed.
Lemma file_reads s ls lead : Forall idle lead -> folded_sections s ls -> NoDup (map fst s) -> all_fine s ->
  exists st, read_lines reader_init (lead ++ ls) = (st, false) /\ r_sections st = lows s /\ r_defaults st = [] /\ r_error st = false.
Proof.
  intros LD H ND F. rewrite (idle_run lead ls LD). destruct H as [|n1 o1 s l ls os rest L I O H].
  - exists reader_init. repeat split.
  - apply Forall_cons_iff in F. cbn [fst snd] in F. destruct F as ((NO1 & NK1 & F1) & F).
    destruct (head_first _ _ NO1 L) as (st1 & E & R1). cbn [read_lines]. rewrite E. rewrite read_lines_app, (idle_heads _ _ _ _ I R1). cbv iota.
    destruct (folded_read [] _ (proj2 (proj2 NO1)) (fun x => x) _ _ O [] [] st1 NK1 F1 R1) as (opt2 & st2 & E2 & R2). cbn [app] in R2.
    rewrite read_lines_app, E2. cbv iota. exact (rest_read _ _ H [] n1 o1 opt2 st2 ND F R2).
Qed.
Lemma split_concat ls : Forall no_newline ls -> split_lines (concat (map (fun l => l ++ [10]) ls)) = ls.
Proof.
  induction 1 as [|l ls N _ IH]; [reflexivity|]. cbn [map concat]. rewrite <- app_assoc. cbn [app]. now rewrite (split_lines_app _ _ N), IH.
Qed.
Lemma drop_spec q : exists w, rev q = rev (drop_while is_white q) ++ w /\ all_white w /\ forall r c, rev (drop_while is_white q) = r ++ [c] -> ~ white_char c.
Proof.
  induction q as [|c q (w & E & W & N)].
  - exists []. split; [reflexivity|]. split; [constructor|]. intros r c E. cbn in E. now destruct r.
  - cbn [drop_while rev]. destruct (is_white c) eqn:C.
    + exists (w ++ [c]). split; [rewrite E; now rewrite <- app_assoc|]. split; [|exact N]. apply Forall_app. split; [exact W|]. constructor; [now apply white_iff|constructor].
    + exists []. split; [now rewrite app_nil_r|]. split; [constructor|]. intros r x Q. cbn [rev] in Q. apply app_inj_tail in Q. destruct Q as (_ & <-).
      intros X. apply white_iff in X. congruence.
Qed.
Lemma rstrip_spec t : exists w, t = rstrip t ++ w /\ all_white w /\ forall r c, rstrip t = r ++ [c] -> ~ white_char c.
Proof. unfold rstrip. destruct (drop_spec (rev t)) as (w & E & W & N). rewrite rev_involutive in E. exists w. auto. Qed.
Lemma lines_joined l : match l with [] => [] | a :: r => a ++ flat_map (fun x => 10 :: x) r end = text_of_lines l.
Proof.
  destruct l as [|a r]; [reflexivity|]. revert a. induction r as [|b r IH]; intros a; [apply app_nil_r|].
  cbn [flat_map]. change (text_of_lines (a :: b :: r)) with (a ++ 10 :: text_of_lines (b :: r)). rewrite <- IH. reflexivity.
Qed.

(** A value goes on in the lines below it that begin with white space. *)
Theorem C58_continued : forall s t, folded_sayable s -> folded_file s t -> exists i, parse_ini t = Parsed i /\ folded_said s i.
Proof.
  intros s t (ND & F) (lead & ls & LD & FS & NL & ->).
  destruct (file_reads s ls lead LD FS ND F) as (st & E & S & DF & ER).
  exists (joined_ini st). split.
  - unfold parse_ini. rewrite (split_concat _ NL), E, ER. reflexivity.
  - split; [cbn [joined_ini i_defaults]; rewrite DF; reflexivity|]. cbn [joined_ini i_sections]. rewrite S. clear.
    induction s as [|[n o] s IH]; [constructor|]. constructor; [|exact IH]. cbn [fst snd]. split; [reflexivity|]. unfold join_options.
    induction o as [|[k vs] o IO]; [constructor|]. constructor; [|exact IO]. cbn [fst snd]. split; [reflexivity|].
    unfold join_lines, folded_value. rewrite lines_joined. exact (rstrip_spec _).
Qed.
Print Assumptions C58_continued.

(** So an option that is indented below another one is not set: its line belongs to the value above. *)
Definition indented : list text := [ustr "[MARGO]"; ustr "# shift"; ustr "A = 1"; ustr "  B = 2"; []; ustr "C: x"].
Example C58_continued_nonvacuous :
  folded_sayable [(ustr "MARGO", [(ustr "A", [ustr "1"; ustr "B = 2"; []]); (ustr "C", [ustr "x"])])] /\
  folded_file [(ustr "MARGO", [(ustr "A", [ustr "1"; ustr "B = 2"; []]); (ustr "C", [ustr "x"])])] (concat (map (fun l => l ++ [10]) indented)) /\
  folded_value [ustr "1"; ustr "B = 2"; []] (ustr "1" ++ [10] ++ ustr "B = 2").
Proof.
  assert (T : forall t, match t with [] => True | c :: _ => is_white c = false end -> match rev t with [] => True | c :: _ => is_white c = false end -> trimmed t).
  { intros t A B. split.
    - intros c r ->. cbn in A. intros X. apply white_iff in X. congruence.
    - intros r c ->. rewrite rev_app_distr in B. cbn in B. intros X. apply white_iff in X. congruence. }
  assert (KF : forall k, In k [ustr "A"; ustr "C"] -> key_fine k).
  { intros k I. cbn in I. destruct I as [<-|[<-|[]]];
    (split; [discriminate|]; split; [intros X; cbn in X; intuition discriminate|]; split; [apply T; reflexivity|];
     split; [intros X; cbn in X; intuition discriminate|]; split; [intros X; cbn in X; intuition discriminate|]; intros c r E; injection E as <- _; lia). }
  split; [|split].
  - split; [repeat constructor; intros []|]. constructor; [|constructor]. cbn [fst snd]. split; [|split].
    + split; [discriminate|]. split; [intros X; cbn in X; intuition discriminate|discriminate].
    + cbn [map fst]. constructor; [|constructor; [intros []|constructor]]. intros X. cbn in X. intuition discriminate.
    + constructor; [|constructor; [|constructor]]; (split; [apply KF; cbn; tauto|]); intros v vs E; cbn [snd] in E; injection E as <- _;
        (split; [intros X; cbn in X; intuition discriminate|apply T; reflexivity]).
  - exists [], indented. split; [constructor|]. split; [|split; [|reflexivity]].
    + unfold indented. apply (folded_section (ustr "MARGO") _ [] (ustr "[MARGO]") [ustr "# shift"] (skipn 2 indented) []).
      * exists []. split; [reflexivity|intros []].
      * constructor; [|constructor]. right. exists [], 35, (ustr " shift"). split; [reflexivity|]. split; [constructor|now left].
      * apply (folded_one (ustr "A") (ustr "1") [ustr "B = 2"; []] _ (ustr "A = 1") [ustr "  B = 2"; []] [ustr "C: x"]).
        -- exists [32], 61, [32], []. split; [reflexivity|]. split; [constructor; [right; lia|constructor]|]. split; [constructor; [right; lia|constructor]|]. split; [constructor|now left].
        -- apply (value_more _ [32; 32] (ustr "B = 2") []); [discriminate|repeat (constructor; [right; lia|]); constructor|constructor|apply T; reflexivity| |].
           ++ exists 66, (ustr " = 2"). split; [reflexivity|]. lia.
           ++ apply value_blank; constructor.
        -- apply (folded_one (ustr "C") (ustr "x") [] [] (ustr "C: x") [] []); [|constructor|constructor].
           exists [], 58, [32], []. split; [reflexivity|]. split; [constructor|]. split; [constructor; [right; lia|constructor]|]. split; [constructor|now right].
      * constructor.
    + cbn [app]. unfold indented. repeat (constructor; [intros X; cbn in X; intuition discriminate|]). constructor.
  - exists [10]. split; [reflexivity|]. split; [constructor; [left; lia|constructor]|]. intros r c E.
    assert (Q : exists p, ustr "1" ++ [10] ++ ustr "B = 2" = p ++ [50]) by (exists (ustr "1" ++ [10] ++ ustr "B = "); reflexivity).
    destruct Q as (p & Q). rewrite Q in E. apply app_inj_tail in E. destruct E as (_ & <-). unfold white_char. lia.
Qed.
