(** * IniProofs: reading a file that is written by the rules of IniSpec. *)
From Coq Require Import String.
From Verif Require Import PyBase PyDict PyVal ControlsModel ControlsProofs IniModel IniSpec.
Local Open Scope string_scope.
Local Open Scope list_scope.
Local Open Scope Z_scope.

Lemma white_iff c : is_white c = true <-> white_char c.
Proof. unfold is_white, white_char. rewrite Bool.orb_true_iff, !Bool.andb_true_iff, !Z.leb_le. reflexivity. Qed.
Lemma white_no c : ~ white_char c -> is_white c = false.
Proof. intros N. destruct (is_white c) eqn:E; [apply white_iff in E; tauto|reflexivity]. Qed.
Lemma all_white_true t : all_white t -> Forall (fun c => is_white c = true) t.
Proof. apply Forall_impl. intros c. apply white_iff. Qed.
Lemma eqb_refl t : text_eqb t t = true.
Proof. now apply text_eqb_spec. Qed.
Lemma eqb_no a b : a <> b -> text_eqb a b = false.
Proof. intros N. destruct (text_eqb a b) eqn:E; [apply text_eqb_spec in E; tauto|reflexivity]. Qed.

(** ** Lines *)
Lemma split_lines_app l r : no_newline l -> split_lines (l ++ 10 :: r) = l :: split_lines r.
Proof.
  unfold no_newline. induction l as [|c l IH]; intros N; cbn [app split_lines].
  - reflexivity.
  - cbn [In] in N. destruct (Z.eqb_spec c 10) as [E|_]; [tauto|]. now rewrite IH by tauto.
Qed.
Lemma split_lines_one l : no_newline l -> l <> [] -> split_lines l = [l].
Proof.
  unfold no_newline. induction l as [|c l IH]; intros N NE; [congruence|]. cbn [split_lines]. cbn [In] in N.
  destruct (Z.eqb_spec c 10) as [E|_]; [tauto|]. destruct l as [|d l]; [reflexivity|]. now rewrite IH by (tauto || discriminate).
Qed.
Lemma lines_back ls : Forall no_newline ls ->
  ls = split_lines (text_of_lines ls) \/ ls = split_lines (text_of_lines ls) ++ [[]].
Proof.
  induction 1 as [|l ls N _ IH]; [now left|]. destruct ls as [|m ls].
  - cbn [text_of_lines]. destruct l as [|c l]; [now right|]. left. now rewrite split_lines_one by (assumption || discriminate).
  - change (text_of_lines (l :: m :: ls)) with (l ++ 10 :: text_of_lines (m :: ls)). rewrite split_lines_app by exact N.
    cbn [app]. destruct IH as [E|E]; [left|right]; f_equal; exact E.
Qed.

Lemma header_nonempty n : ~ header_line n [].
Proof. intros (r & E & _). discriminate. Qed.
Lemma option_nonempty k v : ~ option_line k v [].
Proof.
  intros (w1 & d & w2 & w3 & E & _). destruct k as [|c k]; [|discriminate]. destruct w1; discriminate.
Qed.
Lemma options_without o ls : option_lines o ls -> forall l, ls = l ++ [[]] -> option_lines o l.
Proof.
  induction 1 as [|o l ls I H IH|k v o l ls L H IH]; intros m E.
  - destruct m; discriminate.
  - destruct m as [|x m].
    + assert (ls = []) as -> by (now inversion E). exact H.
    + assert (l = x /\ ls = m ++ [[]]) as (<- & E2) by (now inversion E). constructor; auto.
  - destruct m as [|x m].
    + assert (l = []) as -> by (now inversion E). now apply option_nonempty in L.
    + assert (l = x /\ ls = m ++ [[]]) as (<- & E2) by (now inversion E). apply one_option; auto.
Qed.
Lemma file_without s ls : file_lines s ls -> forall l, ls = l ++ [[]] -> file_lines s l.
Proof.
  induction 1 as [|s l ls I H IH|name o s l ls rest L O H IH]; intros m E.
  - destruct m; discriminate.
  - destruct m as [|x m].
    + assert (ls = []) as -> by (now inversion E). exact H.
    + assert (l = x /\ ls = m ++ [[]]) as (<- & E2) by (now inversion E). constructor; auto.
  - destruct m as [|x m].
    + assert (l = []) as -> by (now inversion E). now apply header_nonempty in L.
    + assert (l = x /\ ls ++ rest = m ++ [[]]) as (<- & E2) by (now inversion E).
      destruct rest as [|a rest] using rev_ind.
      * rewrite app_nil_r in E2. rewrite <- (app_nil_r m). apply one_section; auto. now apply (options_without _ _ O).
      * clear IHrest. rewrite app_assoc in E2. apply app_inj_tail in E2. destruct E2 as (<- & ->).
        apply one_section; auto.
Qed.

(** ** Pieces of a line *)
Lemma strip_white_only t : all_white t -> strip is_white t = [].
Proof.
  intros W. unfold strip. replace (drop_while is_white t) with (@nil Z); [reflexivity|].
  rewrite <- (app_nil_r t), drop_while_app by now apply all_white_true. reflexivity.
Qed.
Lemma rstrip_app t w : all_white w -> (forall r c, t = r ++ [c] -> ~ white_char c) -> rstrip (t ++ w) = t.
Proof.
  intros W H. unfold rstrip. rewrite rev_app_distr, drop_while_app by (apply Forall_rev; now apply all_white_true).
  rewrite drop_while_id; [apply rev_involutive|]. intros c r E. apply white_no. apply (H (rev r)).
  rewrite <- (rev_involutive t), E. reflexivity.
Qed.
Lemma strip_trimmed w1 t w2 : all_white w1 -> all_white w2 -> trimmed t -> strip is_white (w1 ++ t ++ w2) = t.
Proof.
  intros A B (H & T). destruct t as [|c t].
  - apply strip_white_only. now apply Forall_app.
  - apply strip_unique; [apply Forall_app; split; now apply all_white_true| | |discriminate].
    + intros x r E. apply white_no. eapply H; exact E.
    + intros r x E. apply white_no. eapply T; exact E.
Qed.
Lemma idle_stripped l : idle l -> strip is_white l = [] \/ is_comment (strip is_white l) = true.
Proof.
  intros [W|(w & c & r & -> & W & C)]; [left; now apply strip_white_only|right].
  assert (N : is_white c = false) by (apply white_no; unfold white_char; lia).
  destruct (strip_split is_white (w ++ c :: r)) as (a & b & E & F & H & T). unfold strip at 1.
  rewrite (drop_while_app is_white w) by now apply all_white_true. cbn [drop_while]. rewrite N.
  cbn [rev]. assert (X : exists q, drop_while is_white (rev r ++ [c]) = q ++ [c]).
  { clear - N. induction (rev r) as [|x q IH]; cbn [app drop_while]; [rewrite N; now exists []|].
    destruct (is_white x); [exact IH|now exists (x :: q)]. }
  destruct X as (q & ->). rewrite rev_app_distr. cbn [rev app is_comment]. rewrite Bool.orb_true_iff, !Z.eqb_eq. exact C.
Qed.

Lemma last_bracket_app n r : ~ In 93 r -> last_bracket (n ++ 93 :: r) = Some n.
Proof.
  intros N. assert (Z0 : last_bracket r = None).
  { revert N. induction r as [|c r IH]; intros N; [reflexivity|]. cbn [last_bracket]. cbn [In] in N. rewrite IH by tauto.
    destruct (Z.eqb_spec c 93); [tauto|reflexivity]. }
  induction n as [|c n IH]; cbn [app last_bracket]; [now rewrite Z0|]. now rewrite IH.
Qed.
Lemma header_parts name l : header_line name l -> exists rest, strip is_white l = 91 :: name ++ 93 :: rest /\ ~ In 93 rest /\ indent_of l = 0.
Proof.
  intros (rest & -> & N). destruct (drop_while_split is_white (rev rest)) as (a & E & W).
  set (b := drop_while is_white (rev rest)) in *.
  assert (R : rest = rev b ++ rev a) by (rewrite <- rev_app_distr, <- E; symmetry; apply rev_involutive).
  exists (rev b). split; [|split].
  - rewrite R. replace (91 :: name ++ 93 :: rev b ++ rev a) with ([] ++ (91 :: name ++ 93 :: rev b) ++ rev a)
      by (cbn [app]; now rewrite <- app_assoc).
    apply strip_trimmed; [constructor| |].
    + apply Forall_rev. eapply Forall_impl; [|exact W]. intros c. apply white_iff.
    + split.
      * intros c r X. assert (c = 91) as -> by congruence. unfold white_char; lia.
      * intros r c X. destruct b as [|d b'] eqn:B.
        -- cbn [rev] in X. change (91 :: name ++ [93]) with ((91 :: name) ++ [93]) in X. apply app_inj_tail in X. destruct X as [_ <-]. unfold white_char; lia.
        -- cbn [rev] in X. replace (91 :: name ++ 93 :: rev b' ++ [d]) with ((91 :: name ++ 93 :: rev b') ++ [d]) in X
             by (cbn [app]; now rewrite <- app_assoc). apply app_inj_tail in X. destruct X as [_ <-].
           unfold b in B. apply drop_while_head in B. intros X. apply white_iff in X. congruence.
  - intros I. apply N. rewrite R. apply in_or_app. now left.
  - reflexivity.
Qed.

Lemma split_delim_app k d v : ~ In 61 k -> ~ In 58 k -> d = 61 \/ d = 58 -> split_delim (k ++ d :: v) = Some (k, v).
Proof.
  intros A B D. induction k as [|c k IH]; cbn [app split_delim].
  - destruct D as [-> | ->]; reflexivity.
  - cbn [In] in A, B. replace ((c =? 61) || (c =? 58)) with false; [now rewrite IH by tauto|].
    symmetry. apply Bool.orb_false_iff. split; apply Z.eqb_neq; tauto.
Qed.
Lemma white_no_delim w : all_white w -> ~ In 61 w /\ ~ In 58 w.
Proof. intros W. split; intros I; pose proof (proj1 (Forall_forall _ _) W _ I) as X; unfold white_char in X; lia. Qed.
Lemma option_parts k v l : key_fine k -> value_fine v -> option_line k v l ->
  exists w1 rest c r, strip is_white l = c :: r /\ is_white c = false /\ c <> 91 /\ is_comment (c :: r) = false /\
    split_delim (c :: r) = Some (k ++ w1, rest) /\ all_white w1 /\ strip is_white rest = v /\ indent_of l = 0.
Proof.
  intros (KN & _ & KT & K1 & K2 & K3) (_ & VT) (w1 & d & w2 & w3 & -> & W1 & W2 & W3 & D).
  destruct k as [|c k]; [congruence|]. destruct (K3 c k eq_refl) as (C1 & C2 & C3).
  assert (CW : ~ white_char c) by (apply (proj1 KT c k eq_refl)).
  assert (DW : ~ white_char d) by (unfold white_char; lia).
  assert (X : exists w, all_white w /\ strip is_white ((c :: k) ++ w1 ++ d :: w2 ++ v ++ w3) = (c :: k) ++ w1 ++ d :: w ++ v).
  { destruct v as [|a v] using rev_ind.
    - exists []. split; [constructor|]. rewrite app_nil_r. cbn [app].
      replace (c :: k ++ w1 ++ d :: w2 ++ w3) with ([] ++ (c :: k ++ w1 ++ [d]) ++ (w2 ++ w3)) by (cbn [app]; now rewrite <- !app_assoc).
      apply strip_trimmed; [constructor|now apply Forall_app|]. split.
      + intros x r E. assert (x = c) as -> by congruence. exact CW.
      + intros r x E. replace (c :: k ++ w1 ++ [d]) with ((c :: k ++ w1) ++ [d]) in E by (cbn [app]; now rewrite <- app_assoc).
        apply app_inj_tail in E. destruct E as [_ <-]. exact DW.
    - clear IHv. exists w2. split; [exact W2|].
      replace ((c :: k) ++ w1 ++ d :: w2 ++ (v ++ [a]) ++ w3) with ([] ++ ((c :: k) ++ w1 ++ d :: w2 ++ v ++ [a]) ++ w3)
        by (cbn [app]; rewrite <- !app_assoc; cbn [app]; now rewrite <- !app_assoc).
      apply strip_trimmed; [constructor|exact W3|]. split.
      + intros x r E. cbn [app] in E. assert (x = c) as -> by congruence. exact CW.
      + intros r x E. replace ((c :: k) ++ w1 ++ d :: w2 ++ v ++ [a]) with (((c :: k) ++ w1 ++ d :: w2 ++ v) ++ [a]) in E
          by (rewrite <- !app_assoc; cbn [app]; now rewrite <- !app_assoc).
        apply app_inj_tail in E. destruct E as [_ <-]. apply (proj2 VT v a eq_refl). }
  destruct X as (w & W & ST). exists w1, (w ++ v), c, (k ++ w1 ++ d :: w ++ v). rewrite ST.
  split; [reflexivity|]. split; [now apply white_no|]. split; [exact C1|]. split; [|split; [|split; [exact W1|split]]].
  - cbn [is_comment]. apply Bool.orb_false_iff. split; apply Z.eqb_neq; assumption.
  - change (c :: k ++ w1 ++ d :: w ++ v) with ((c :: k) ++ w1 ++ d :: w ++ v). rewrite app_assoc.
    destruct (white_no_delim _ W1) as (N1 & N2).
    apply split_delim_app; [| |exact D]; intros I; apply in_app_or in I; tauto.
  - rewrite <- (app_nil_r v) at 1. apply strip_trimmed; [exact W|constructor|exact VT].
  - cbn [app indent_of]. now rewrite (white_no _ CW).
Qed.

(** ** The state of the reader *)
Definition opts_match (o : list (text * text)) (raw : raw_options) : Prop :=
  Forall2 (fun kv r => fst r = lower (fst kv) /\ exists n, snd r = snd kv :: repeat [] n) o raw.
Definition secs_match (s : settings) (raw : list (text * raw_options)) : Prop :=
  Forall2 (fun sec r => fst r = fst sec /\ opts_match (snd sec) (snd r)) s raw.
Definition lkeys (o : list (text * text)) : list text := map (fun kv => lower (fst kv)) o.
(** Nothing has been read but idle lines. *)
Definition fresh (st : reader) : Prop := st = reader_init.
(** The sections [d] have been read, and of the section [name] the options [o]. *)
Definition inside_section (d : settings) (name : text) (o : list (text * text)) (st : reader) : Prop :=
  (exists a raw, r_sections st = a ++ [(name, raw)] /\ secs_match d a /\ opts_match o raw) /\
  r_defaults st = [] /\ r_error st = false /\ r_indent st = 0 /\ r_section st = Some name /\
  (r_option st = [] \/ In (r_option st) (lkeys o)) /\
  (forall s k, In (s, k) (r_added st) -> In s (map fst d) \/ (s = name /\ In k (lkeys o))) /\
  (forall n, In n (map fst d) \/ n = name -> In n (r_heads st)) /\ (forall k, In k (lkeys o) -> In (name, k) (r_added st)).

Lemma secs_names s raw : secs_match s raw -> map fst raw = map fst s.
Proof. induction 1 as [|sec r s raw (E & _) _ IH]; [reflexivity|]. cbn [map]. f_equal; [exact E|exact IH]. Qed.
Lemma opts_names o raw : opts_match o raw -> map fst raw = lkeys o.
Proof. unfold lkeys. induction 1 as [|kv r o raw (E & _) _ IH]; [reflexivity|]. cbn [map]. f_equal; [exact E|exact IH]. Qed.
Lemma dset_last {V} (a : list (text * V)) k v v' : ~ In k (map fst a) -> dset text_eqb (a ++ [(k, v)]) k v' = a ++ [(k, v')].
Proof.
  induction a as [|[k0 v0] a IH]; intros N; cbn [app dset]; [now rewrite eqb_refl|]. cbn [map fst In] in N.
  rewrite eqb_no by (intros X; apply N; left; now symmetry). now rewrite IH by tauto.
Qed.
Lemma dset_new {V} (a : list (text * V)) k v : ~ In k (map fst a) -> dset text_eqb a k v = a ++ [(k, v)].
Proof.
  induction a as [|[k0 v0] a IH]; intros N; cbn [app dset]; [reflexivity|]. cbn [map fst In] in N.
  rewrite eqb_no by (intros X; apply N; left; now symmetry). now rewrite IH by tauto.
Qed.
Lemma dget_last {V} (a : list (text * V)) k v : ~ In k (map fst a) -> dget text_eqb (a ++ [(k, v)]) k = Some v.
Proof.
  induction a as [|[k0 v0] a IH]; intros N; cbn [app dget]; [now rewrite eqb_refl|]. cbn [map fst In] in N.
  rewrite eqb_no by (intros X; apply N; left; now symmetry). now rewrite IH by tauto.
Qed.
Lemma opts_blank o raw k : opts_match o raw -> In k (lkeys o) ->
  opts_match o (dset text_eqb raw k (match dget text_eqb raw k with Some l => l | None => [] end ++ [[]])).
Proof.
  induction 1 as [|kv [rk rv] o raw (E & n & V) H IH]; [intros []|]. cbn [fst snd] in E, V. intros I. cbn [dget dset].
  destruct (text_eqb k rk) eqn:Q.
  - constructor; [|exact H]. cbn [fst snd]. split; [exact E|]. exists (S n). rewrite V. cbn [app]. f_equal.
    change [[]] with (repeat (@nil Z) 1). rewrite <- repeat_app. f_equal. lia.
  - constructor; [split; [exact E|now exists n]|]. apply IH. unfold lkeys in *. cbn [map In] in I.
    destruct I as [X|X]; [|exact X]. exfalso. assert (Y : k = rk) by (transitivity (lower (fst kv)); symmetry; assumption).
    rewrite Y, eqb_refl in Q. discriminate.
Qed.

Lemma idle_fresh l : idle l -> read_line reader_init l = Some reader_init.
Proof.
  intros I. unfold read_line. destruct (idle_stripped l I) as [E|E]; [rewrite E; reflexivity|]. rewrite E. reflexivity.
Qed.
Lemma idle_inside d name o st l : name <> DEFAULTSECT -> ~ In name (map fst d) -> idle l -> inside_section d name o st ->
  exists st', read_line st l = Some st' /\ inside_section d name o st'.
Proof.
  intros ND NN I IN. unfold read_line. destruct (idle_stripped l I) as [E|E].
  - rewrite E. change (is_comment []) with false. cbv iota.
    destruct IN as ((a & raw & S & SM & OM) & DF & ER & IL & SE & OP & AD & HE & AK). rewrite SE.
    destruct (r_option st) as [|c k] eqn:RO.
    + exists st. split; [reflexivity|]. repeat split; auto.
      exists a, raw. auto.
    + eexists. split; [reflexivity|]. destruct OP as [X|OP]; [discriminate|].
      assert (NA : ~ In name (map fst a)) by now rewrite (secs_names _ _ SM).
      unfold append_line, set_cursect, cursect. rewrite (eqb_no _ _ ND), S, (dget_last _ _ _ NA).
      repeat split; cbn [r_sections r_defaults r_error r_indent r_section r_option r_added r_heads]; auto.
      * rewrite (dset_last _ _ _ _ NA). eexists a, _. split; [reflexivity|]. split; [exact SM|]. now apply opts_blank.
      * rewrite RO. now right.
  - rewrite E. exists st. split; [|exact IN]. destruct (r_section st); [|reflexivity]. destruct (r_option st); reflexivity.
Qed.

Lemma existsb_no name h : existsb (text_eqb name) h = true -> In name h.
Proof. intros H. apply existsb_exists in H. destruct H as (x & I & E). apply text_eqb_spec in E. now subst. Qed.
Lemma header_of_line name l : name <> [] -> header_line name l ->
  exists c r, strip is_white l = c :: r /\ is_comment (c :: r) = false /\ header_of (c :: r) = Some name /\ indent_of l = 0.
Proof.
  intros NE H. apply header_parts in H. destruct H as (rest & E & N & I). exists 91, (name ++ 93 :: rest).
  split; [exact E|]. split; [reflexivity|]. split; [|exact I]. cbn [header_of]. rewrite Z.eqb_refl, (last_bracket_app _ _ N).
  now destruct name.
Qed.
Lemma header_fresh name l : name_ok name -> header_line name l ->
  exists st', read_line reader_init l = Some st' /\ inside_section [] name [] st'.
Proof.
  intros (NE & _ & ND) H. destruct (header_of_line _ _ NE H) as (c & r & E & C & HD & IL).
  unfold read_line. rewrite E, C. cbv iota. cbn [reader_init r_section]. rewrite HD, IL.
  unfold open_section. cbn [with_indent r_sections reader_init dget dset]. unfold DEFAULTSECT. rewrite (eqb_no _ _ ND).
  eexists. split; [reflexivity|]. repeat split; cbn [r_sections r_defaults r_error r_indent r_section r_option r_added r_heads with_indent reader_init]; auto.
  - exists [], []. repeat split; constructor.
  - intros n [[]| ->]. now left.
Qed.
Lemma header_next d name o st name' l : name_ok name' -> ~ In name' (map fst (d ++ [(name, o)])) -> header_line name' l ->
  inside_section d name o st -> exists st', read_line st l = Some st' /\ inside_section (d ++ [(name, o)]) name' [] st'.
Proof.
  intros (NE & _ & ND) NN H ((a & raw & S & SM & OM) & DF & ER & IL & SE & OP & AD & HE & AK).
  destruct (header_of_line _ _ NE H) as (c & r & E & C & HD & IL').
  unfold read_line. rewrite E, C. cbv iota. rewrite SE, IL, IL'. change (0 <? 0) with false.
  assert (SM' : secs_match (d ++ [(name, o)]) (a ++ [(name, raw)])).
  { apply Forall2_app; [exact SM|]. constructor; [split; [reflexivity|exact OM]|constructor]. }
  assert (X : exists st', open_section (with_indent st 0) name' = Some st' /\ inside_section (d ++ [(name, o)]) name' [] st').
  { unfold open_section. cbn [with_indent r_sections]. rewrite S.
    assert (NA : ~ In name' (map fst (a ++ [(name, raw)]))) by now rewrite (secs_names _ _ SM').
    rewrite (proj2 (dget_None text_eqb text_eqb_spec _ _) NA). unfold DEFAULTSECT. rewrite (eqb_no _ _ ND), (dset_new _ _ _ NA).
    eexists. split; [reflexivity|]. repeat split; cbn [r_sections r_defaults r_error r_indent r_section r_option r_added r_heads with_indent]; auto.
    - exists (a ++ [(name, raw)]), []. split; [reflexivity|]. split; [exact SM'|constructor].
    - intros s k I. left. rewrite map_app. apply in_or_app. destruct (AD _ _ I) as [X|(-> & _)]; [now left|right; now left].
    - intros n [I| ->]; [right|now left]. apply HE. rewrite map_app in I. apply in_app_or in I. cbn [map fst In] in I. intuition.
    - intros k []. }
  destruct (r_option st); rewrite HD; exact X.
Qed.
Lemma pair_existsb s k l : existsb (pair_eqb (s, k)) l = true -> In (s, k) l.
Proof.
  intros H. apply existsb_exists in H. destruct H as ([x y] & I & E). unfold pair_eqb in E. cbn [fst snd] in E.
  apply Bool.andb_true_iff in E. destruct E as (A & B). apply text_eqb_spec in A, B. now subst.
Qed.
Lemma option_next d name o st k v l : name <> DEFAULTSECT -> ~ In name (map fst d) -> key_fine k -> value_fine v -> ~ In (lower k) (lkeys o) ->
  option_line k v l -> inside_section d name o st ->
  exists st', read_line st l = Some st' /\ inside_section d name (o ++ [(k, v)]) st'.
Proof.
  intros ND NN KF VF NK H ((a & raw & S & SM & OM) & DF & ER & IL & SE & OP & AD & HE & AK).
  destruct (option_parts _ _ _ KF VF H) as (w1 & rest & c & r & E & CW & C91 & CM & SD & W1 & RS & IL').
  unfold read_line. rewrite E, CM. cbv iota. rewrite SE, IL, IL'. change (0 <? 0) with false.
  assert (HD : header_of (c :: r) = None) by (cbn [header_of]; now rewrite (proj2 (Z.eqb_neq c 91) C91)).
  destruct KF as (KN & _ & KT & _).
  assert (R1 : rstrip (k ++ w1) = k) by (apply rstrip_app; [exact W1|exact (proj2 KT)]).
  assert (R2 : rstrip k = k) by (rewrite <- (app_nil_r k) at 1; apply rstrip_app; [constructor|exact (proj2 KT)]).
  assert (NA : ~ In name (map fst a)) by now rewrite (secs_names _ _ SM).
  assert (X : exists st', set_option (with_indent st 0) name k rest = Some st' /\ inside_section d name (o ++ [(k, v)]) st').
  { unfold set_option. rewrite R2, RS. replace (match k with [] => with_error (with_indent st 0) | _ => with_indent st 0 end) with (with_indent st 0) by (now destruct k).
    destruct (existsb (pair_eqb (name, lower k)) (r_added (with_indent st 0))) eqn:EX.
    - exfalso. apply pair_existsb in EX. cbn [with_indent r_added] in EX. destruct (AD _ _ EX) as [Q|(_ & Q)]; tauto.
    - eexists. split; [reflexivity|]. unfold set_cursect, cursect. rewrite (eqb_no _ _ ND).
      cbn [with_indent r_sections r_defaults r_error r_indent r_section r_option r_added]. rewrite S, (dget_last _ _ _ NA), (dset_last _ _ _ _ NA).
      assert (NR : ~ In (lower k) (map fst raw)) by now rewrite (opts_names _ _ OM).
      rewrite (dset_new _ _ _ NR).
      repeat split; cbn [r_sections r_defaults r_error r_indent r_section r_option r_added r_heads]; auto.
      + eexists a, _. split; [reflexivity|]. split; [exact SM|]. apply Forall2_app; [exact OM|]. constructor; [|constructor].
        cbn [fst snd]. split; [reflexivity|]. now exists 0%nat.
      + right. unfold lkeys. rewrite map_app. apply in_or_app. right. now left.
      + intros s q [Q|I].
        * right. assert (s = name /\ q = lower k) as (-> & ->) by (split; congruence). split; [reflexivity|]. unfold lkeys. rewrite map_app. apply in_or_app. right. now left.
        * destruct (AD _ _ I) as [Y|(-> & Y)]; [now left|]. right. split; [reflexivity|]. unfold lkeys. rewrite map_app. apply in_or_app. now left.
      + intros q I. unfold lkeys in I. rewrite map_app in I. apply in_app_or in I. cbn [map fst In] in I.
        destruct I as [I|[<-|[]]]; [right; now apply AK|now left]. }
  destruct (r_option st); rewrite HD; cbn [with_indent r_section]; rewrite SE, SD, R1; exact X.
Qed.

(** ** Whole files *)
Lemma read_lines_app a b st : read_lines st (a ++ b) =
  (let '(st', x) := read_lines st a in if x then (st', true) else read_lines st' b).
Proof.
  revert st. induction a as [|l a IH]; intros st; [reflexivity|]. cbn [app read_lines]. destruct (read_line st l); [apply IH|reflexivity].
Qed.
Lemma options_read d name ls : name <> DEFAULTSECT -> ~ In name (map fst d) -> forall o, option_lines o ls -> forall o0 st,
  NoDup (lkeys (o0 ++ o)) -> Forall (fun kv => key_fine (fst kv) /\ value_fine (snd kv)) o -> inside_section d name o0 st ->
  exists st', read_lines st ls = (st', false) /\ inside_section d name (o0 ++ o) st'.
Proof.
  intros ND NN. induction 1 as [|o l ls I H IH|k v o l ls L H IH]; intros o0 st NDK F IN.
  - exists st. rewrite app_nil_r. auto.
  - destruct (idle_inside _ _ _ _ _ ND NN I IN) as (st1 & E & IN1). cbn [read_lines]. rewrite E. now apply IH.
  - apply Forall_cons_iff in F. destruct F as ((KF & VF) & F). cbn [fst snd] in KF, VF.
    assert (NK : ~ In (lower k) (lkeys o0)).
    { unfold lkeys in *. rewrite map_app in NDK. cbn [map fst] in NDK. apply NoDup_remove_2 in NDK. intros X. apply NDK, in_or_app. now left. }
    destruct (option_next _ _ _ _ _ _ _ ND NN KF VF NK L IN) as (st1 & E & IN1). cbn [read_lines]. rewrite E.
    specialize (IH (o0 ++ [(k, v)]) st1). rewrite <- app_assoc in IH. cbn [app] in IH. now apply IH.
Qed.
Definition sections_fine (s : settings) : Prop :=
  Forall (fun sec => name_ok (fst sec) /\ NoDup (lkeys (snd sec)) /\ Forall (fun kv => key_fine (fst kv) /\ value_fine (snd kv)) (snd sec)) s.
Lemma file_read s ls : file_lines s ls -> forall d name o st, NoDup (map fst (d ++ (name, o) :: s)) -> name_ok name -> sections_fine s ->
  inside_section d name o st ->
  exists d' name' o' st', read_lines st ls = (st', false) /\ inside_section d' name' o' st' /\ d' ++ [(name', o')] = d ++ (name, o) :: s.
Proof.
  induction 1 as [|s l ls I H IH|n1 o1 s l ls rest L O H IH]; intros d name o st ND NO F IN.
  - exists d, name, o, st. auto.
  - assert (NN : ~ In name (map fst d)) by (rewrite map_app in ND; cbn [map fst] in ND; apply NoDup_remove_2 in ND; intros X; apply ND, in_or_app; now left).
    destruct (idle_inside _ _ _ _ _ (proj2 (proj2 NO)) NN I IN) as (st1 & E & IN1). cbn [read_lines]. rewrite E. now apply IH.
  - apply Forall_cons_iff in F. cbn [fst snd] in F. destruct F as ((NO1 & NK1 & F1) & F).
    replace (d ++ (name, o) :: (n1, o1) :: s) with ((d ++ [(name, o)]) ++ (n1, o1) :: s) in ND |- * by now rewrite <- app_assoc.
    assert (NN : ~ In n1 (map fst (d ++ [(name, o)]))).
    { rewrite map_app in ND. cbn [map fst] in ND. apply NoDup_remove_2 in ND. intros X; apply ND, in_or_app; now left. }
    destruct (header_next _ _ _ _ _ _ NO1 NN L IN) as (st1 & E & IN1). cbn [read_lines]. rewrite E.
    destruct (options_read _ _ _ (proj2 (proj2 NO1)) NN _ O [] st1 NK1 F1 IN1) as (st2 & E2 & IN2). cbn [app] in IN2.
    rewrite read_lines_app, E2. cbv iota. now apply IH.
Qed.

Lemma join_repeat v n : trimmed v -> join_lines (v :: repeat [] n) = v.
Proof.
  intros (_ & T). unfold join_lines. apply rstrip_app; [|exact T]. induction n as [|n IH]; cbn [repeat flat_map app]; [constructor|].
  constructor; [unfold white_char; lia|exact IH].
Qed.
Lemma join_opts o raw : Forall (fun kv => key_fine (fst kv) /\ value_fine (snd kv)) o -> opts_match o raw ->
  join_options raw = map (fun kv => (lower (fst kv), snd kv)) o.
Proof.
  intros F M. induction M as [|kv [rk rv] o raw (E & n & V) _ IH]; [reflexivity|]. apply Forall_cons_iff in F. destruct F as ((_ & _ & T) & F).
  cbn [fst snd] in E, V. unfold join_options in *. cbn [map fst snd]. rewrite E, V, (join_repeat _ _ T), IH by exact F. reflexivity.
Qed.
Lemma joined_said s st : sections_fine s -> secs_match s (r_sections st) -> r_defaults st = [] -> joined_ini st = said s.
Proof.
  intros F M D. unfold joined_ini, said. rewrite D. f_equal. cbn [join_options map]. induction M as [|sec [rn ro] s raw (E & O) _ IH]; [reflexivity|].
  apply Forall_cons_iff in F. destruct F as ((_ & _ & FO) & F). cbn [fst snd] in E, O. cbn [map fst snd]. now rewrite E, (join_opts _ _ FO O), IH.
Qed.

Lemma lines_read s m : file_lines s m -> NoDup (map fst s) -> sections_fine s ->
  exists st, read_lines reader_init m = (st, false) /\ r_error st = false /\ secs_match s (r_sections st) /\ r_defaults st = [].
Proof.
  induction 1 as [|s l ls I H IH|n1 o1 s l ls rest L O H _]; intros ND F.
  - exists reader_init. repeat split. constructor.
  - cbn [read_lines]. rewrite (idle_fresh _ I). now apply IH.
  - apply Forall_cons_iff in F. cbn [fst snd] in F. destruct F as ((NO1 & NK1 & F1) & F).
    destruct (header_fresh _ _ NO1 L) as (st1 & E & IN1). cbn [read_lines]. rewrite E.
    destruct (options_read [] _ _ (proj2 (proj2 NO1)) (fun x => x) _ O [] st1 NK1 F1 IN1) as (st2 & E2 & IN2). cbn [app] in IN2.
    rewrite read_lines_app, E2. cbv iota.
    destruct (file_read _ _ H [] n1 o1 st2 ND NO1 F IN2) as (d' & n' & o' & st' & E3 & IN3 & Q). cbn [app] in Q. exists st'. split; [exact E3|].
    destruct IN3 as ((a & raw & S & SM & OM) & DF & ER & _). split; [exact ER|]. split; [|exact DF].
    rewrite S, <- Q. apply Forall2_app; [exact SM|]. constructor; [split; [reflexivity|exact OM]|constructor].
Qed.
Lemma parse_writes s t : sayable s -> writes s t -> parse_ini t = Parsed (said s).
Proof.
  intros (ND & F) (ls & FL & NL & ->). assert (FL' : file_lines s (split_lines (text_of_lines ls))).
  { destruct (lines_back ls NL) as [E|E]; [now rewrite <- E|]. exact (file_without _ _ FL _ E). }
  destruct (lines_read _ _ FL' ND F) as (st & E & ER & M & D). unfold parse_ini. rewrite E, ER. cbn [orb]. f_equal. now apply joined_said.
Qed.

(** ** Things that are said twice *)
Lemma option_again d name o st k v l : key_fine k -> value_fine v -> In (lower k) (lkeys o) ->
  option_line k v l -> inside_section d name o st -> read_line st l = None.
Proof.
  intros KF VF IK H (_ & DF & ER & IL & SE & OP & AD & HE & AK).
  destruct (option_parts _ _ _ KF VF H) as (w1 & rest & c & r & E & CW & C91 & CM & SD & W1 & RS & IL').
  unfold read_line. rewrite E, CM. cbv iota. rewrite SE, IL, IL'. change (0 <? 0) with false.
  assert (HD : header_of (c :: r) = None) by (cbn [header_of]; now rewrite (proj2 (Z.eqb_neq c 91) C91)).
  destruct KF as (KN & _ & KT & _).
  assert (R1 : rstrip (k ++ w1) = k) by (apply rstrip_app; [exact W1|exact (proj2 KT)]).
  assert (R2 : rstrip k = k) by (rewrite <- (app_nil_r k) at 1; apply rstrip_app; [constructor|exact (proj2 KT)]).
  assert (X : set_option (with_indent st 0) name k rest = None).
  { unfold set_option. rewrite R2. replace (match k with [] => with_error (with_indent st 0) | _ => with_indent st 0 end) with (with_indent st 0) by (now destruct k).
    replace (existsb (pair_eqb (name, lower k)) (r_added (with_indent st 0))) with true; [reflexivity|].
    symmetry. apply existsb_exists. exists (name, lower k). split; [now apply AK|]. unfold pair_eqb. cbn [fst snd]. now rewrite !eqb_refl. }
  destruct (r_option st); rewrite HD; cbn [with_indent r_section]; rewrite SE, SD, R1; exact X.
Qed.
Lemma header_again d name o st name' l : name_ok name' -> In name' (map fst (d ++ [(name, o)])) -> header_line name' l ->
  inside_section d name o st -> read_line st l = None.
Proof.
  intros (NE & _ & ND) NN H ((a & raw & S & SM & OM) & DF & ER & IL & SE & OP & AD & HE & AK).
  destruct (header_of_line _ _ NE H) as (c & r & E & C & HD & IL').
  unfold read_line. rewrite E, C. cbv iota. rewrite SE, IL, IL'. change (0 <? 0) with false.
  assert (SM' : secs_match (d ++ [(name, o)]) (a ++ [(name, raw)])).
  { apply Forall2_app; [exact SM|]. constructor; [split; [reflexivity|exact OM]|constructor]. }
  assert (X : open_section (with_indent st 0) name' = None).
  { unfold open_section. cbn [with_indent r_sections r_heads]. rewrite S.
    destruct (dget text_eqb (a ++ [(name, raw)]) name') eqn:G.
    - replace (existsb (text_eqb name') (r_heads st)) with true; [reflexivity|]. symmetry. apply existsb_exists. exists name'.
      split; [|apply eqb_refl]. apply HE. rewrite map_app in NN. apply in_app_or in NN. cbn [map fst In] in NN. intuition.
    - apply (dget_None text_eqb text_eqb_spec) in G. exfalso. apply G. now rewrite (secs_names _ _ SM'). }
  destruct (r_option st); rewrite HD; exact X.
Qed.
Definition options_fine (o : list (text * text)) : Prop := Forall (fun kv => key_fine (fst kv) /\ value_fine (snd kv)) o.
Lemma nodup_snoc {A} (l : list A) x : NoDup l -> ~ In x l -> NoDup (l ++ [x]).
Proof. intros N I. rewrite <- (rev_involutive (l ++ [x])). apply NoDup_rev. rewrite rev_app_distr. cbn. constructor; [now rewrite <- in_rev|now apply NoDup_rev]. Qed.
Lemma options_twice d name ls : name <> DEFAULTSECT -> ~ In name (map fst d) -> forall o, option_lines o ls -> forall o0 st,
  NoDup (lkeys o0) -> options_fine o -> inside_section d name o0 st ->
  (NoDup (lkeys (o0 ++ o)) /\ exists st', read_lines st ls = (st', false) /\ inside_section d name (o0 ++ o) st') \/
  snd (read_lines st ls) = true.
Proof.
  intros ND NN. induction 1 as [|o l ls I H IH|k v o l ls L H IH]; intros o0 st NDK F IN.
  - left. rewrite app_nil_r. split; [exact NDK|]. now exists st.
  - destruct (idle_inside _ _ _ _ _ ND NN I IN) as (st1 & E & IN1). cbn [read_lines]. rewrite E. now apply IH.
  - apply Forall_cons_iff in F. destruct F as ((KF & VF) & F). cbn [fst snd] in KF, VF. cbn [read_lines].
    destruct (in_dec (list_eq_dec Z.eq_dec) (lower k) (lkeys o0)) as [IK|NK].
    + right. now rewrite (option_again _ _ _ _ _ _ _ KF VF IK L IN).
    + destruct (option_next _ _ _ _ _ _ _ ND NN KF VF NK L IN) as (st1 & E & IN1). rewrite E.
      specialize (IH (o0 ++ [(k, v)]) st1). rewrite <- app_assoc in IH. cbn [app] in IH. apply IH; [|exact F|exact IN1].
      unfold lkeys. rewrite map_app. now apply nodup_snoc.
Qed.
Definition parts_fine (s : settings) : Prop := Forall (fun sec => name_ok (fst sec) /\ options_fine (snd sec)) s.
Lemma file_twice s ls : file_lines s ls -> forall d name o st, NoDup (map fst (d ++ [(name, o)])) -> name_ok name -> parts_fine s ->
  inside_section d name o st ->
  (NoDup (map fst (d ++ (name, o) :: s)) /\ Forall (fun sec => NoDup (lkeys (snd sec))) s) \/ snd (read_lines st ls) = true.
Proof.
  induction 1 as [|s l ls I H IH|n1 o1 s l ls rest L O H IH]; intros d name o st ND NO F IN.
  - left. split; [exact ND|constructor].
  - assert (NN : ~ In name (map fst d)) by (rewrite map_app in ND; cbn [map fst] in ND; apply NoDup_remove_2 in ND; intros X; apply ND, in_or_app; now left).
    destruct (idle_inside _ _ _ _ _ (proj2 (proj2 NO)) NN I IN) as (st1 & E & IN1). cbn [read_lines]. rewrite E. now apply IH.
  - apply Forall_cons_iff in F. cbn [fst snd] in F. destruct F as ((NO1 & F1) & F). cbn [read_lines].
    destruct (in_dec (list_eq_dec Z.eq_dec) n1 (map fst (d ++ [(name, o)]))) as [IN'|NN].
    + right. now rewrite (header_again _ _ _ _ _ _ NO1 IN' L IN).
    + replace (d ++ (name, o) :: (n1, o1) :: s) with ((d ++ [(name, o)]) ++ (n1, o1) :: s) by now rewrite <- app_assoc.
      destruct (header_next _ _ _ _ _ _ NO1 NN L IN) as (st1 & E & IN1). rewrite E.
      destruct (options_twice _ _ _ (proj2 (proj2 NO1)) NN _ O [] st1 (NoDup_nil _) F1 IN1) as [(NK & st2 & E2 & IN2)|X].
      * cbn [app] in IN2, NK. rewrite read_lines_app, E2. cbv iota.
        destruct (IH (d ++ [(name, o)]) n1 o1 st2) as [(A & B)|X]; [| | | | |now right]; auto.
        rewrite map_app. now apply nodup_snoc.
      * right. rewrite read_lines_app. destruct (read_lines st1 ls) as [st2 x]. cbn [snd] in X. now rewrite X.
Qed.
Lemma lines_twice s m : file_lines s m -> parts_fine s ->
  (NoDup (map fst s) /\ Forall (fun sec => NoDup (lkeys (snd sec))) s) \/ snd (read_lines reader_init m) = true.
Proof.
  induction 1 as [|s l ls I H IH|n1 o1 s l ls rest L O H _]; intros F.
  - left. split; constructor.
  - cbn [read_lines]. rewrite (idle_fresh _ I). now apply IH.
  - apply Forall_cons_iff in F. cbn [fst snd] in F. destruct F as ((NO1 & F1) & F).
    destruct (header_fresh _ _ NO1 L) as (st1 & E & IN1). cbn [read_lines]. rewrite E.
    destruct (options_twice [] _ _ (proj2 (proj2 NO1)) (fun x => x) _ O [] st1 (NoDup_nil _) F1 IN1) as [(NK & st2 & E2 & IN2)|X].
    + cbn [app] in IN2, NK. rewrite read_lines_app, E2. cbv iota.
      assert (N1 : NoDup (map fst ([] ++ [(n1, o1)]))) by (cbn; constructor; [intros []|constructor]).
      destruct (file_twice _ _ H [] n1 o1 st2 N1 NO1 F IN2) as [(A & B)|X]; [|now right].
      left. cbn [app] in A. split; [exact A|]. constructor; [exact NK|exact B].
    + right. rewrite read_lines_app. destruct (read_lines st1 ls) as [st2 x]. cbn [snd] in X. now rewrite X.
Qed.
Lemma written_lines s t : writes s t -> file_lines s (split_lines t).
Proof.
  intros (ls & FL & NL & ->). destruct (lines_back ls NL) as [E|E]; [now rewrite <- E|]. exact (file_without _ _ FL _ E).
Qed.

(** ** Errors stay *)
Lemma keeps_error st l st' : read_line st l = Some st' -> r_error st = true -> r_error st' = true.
Proof.
  intros H E. unfold read_line in H.
  assert (AL : forall s o v, r_error (append_line st s o v) = true).
  { intros s o v. unfold append_line, set_cursect. destruct (text_eqb s DEFAULTSECT); exact E. }
  assert (REST : forall value, match header_of value with
          | Some name => open_section (with_indent st (indent_of l)) name
          | None => match r_section (with_indent st (indent_of l)) with
              | None => None
              | Some s => match split_delim value with
                  | Some (k, v) => set_option (with_indent st (indent_of l)) s (rstrip k) v
                  | None => Some (with_error (with_indent st (indent_of l))) end end end = Some st' -> r_error st' = true).
  { intros value. destruct (header_of value) as [name|].
    - unfold open_section. destruct (dget _ _ _); [destruct (existsb _ _)|destruct (text_eqb _ _)]; intros X; inversion X; exact E.
    - destruct (r_section (with_indent st (indent_of l))) as [s|]; [|discriminate]. destruct (split_delim value) as [[k v]|].
      + unfold set_option. destruct (existsb _ _); [discriminate|]. intros X. inversion X. unfold set_cursect.
        destruct (text_eqb s DEFAULTSECT); cbn [r_error]; now destruct (rstrip k).
      + intros X. inversion X. reflexivity. }
  destruct (if is_comment (strip is_white l) then [] else strip is_white l) as [|c v].
  - destruct (r_section st) as [s|]; [destruct (r_option st) as [|a o]; [|destruct (is_comment (strip is_white l))]|]; inversion H; subst; auto.
  - destruct (r_section st) as [s|] eqn:RS; [destruct (r_option st) as [|a o]; [|destruct (r_indent st <? indent_of l)]|];
      first [eapply REST; exact H|inversion H; apply AL].
Qed.
Lemma keeps_errors ls : forall st, r_error st = true -> snd (read_lines st ls) = true \/ r_error (fst (read_lines st ls)) = true.
Proof.
  induction ls as [|l ls IH]; intros st E; cbn [read_lines]; [now right|]. destruct (read_line st l) as [st1|] eqn:R; [|now left].
  apply IH. exact (keeps_error _ _ _ R E).
Qed.
Lemma indent_pos l : 0 <= indent_of l.
Proof. induction l as [|c l IH]; cbn [indent_of]; [lia|]. destruct (is_white c); lia. Qed.
Lemma keeps_indent st l st' : read_line st l = Some st' -> 0 <= r_indent st -> 0 <= r_indent st'.
Proof.
  intros H E. unfold read_line in H.
  assert (AL : forall s o v, 0 <= r_indent (append_line st s o v)).
  { intros s o v. unfold append_line, set_cursect. destruct (text_eqb s DEFAULTSECT); exact E. }
  pose proof (indent_pos l) as IP.
  assert (REST : forall value, match header_of value with
          | Some name => open_section (with_indent st (indent_of l)) name
          | None => match r_section (with_indent st (indent_of l)) with
              | None => None
              | Some s => match split_delim value with
                  | Some (k, v) => set_option (with_indent st (indent_of l)) s (rstrip k) v
                  | None => Some (with_error (with_indent st (indent_of l))) end end end = Some st' -> 0 <= r_indent st').
  { intros value. destruct (header_of value) as [name|].
    - unfold open_section. destruct (dget _ _ _); [destruct (existsb _ _)|destruct (text_eqb _ _)]; intros X; inversion X; exact IP.
    - destruct (r_section (with_indent st (indent_of l))) as [s|]; [|discriminate]. destruct (split_delim value) as [[k v]|].
      + unfold set_option. destruct (existsb _ _); [discriminate|]. intros X. inversion X. unfold set_cursect.
        destruct (text_eqb s DEFAULTSECT); cbn [r_indent]; now destruct (rstrip k).
      + intros X. inversion X. exact IP. }
  destruct (if is_comment (strip is_white l) then [] else strip is_white l) as [|c v].
  - destruct (r_section st) as [s|]; [destruct (r_option st) as [|a o]; [|destruct (is_comment (strip is_white l))]|]; inversion H; subst; auto.
  - destruct (r_section st) as [s|] eqn:RS; [destruct (r_option st) as [|a o]; [|destruct (r_indent st <? indent_of l)]|];
      first [eapply REST; exact H|inversion H; apply AL].
Qed.
Lemma split_delim_none t : ~ In 61 t -> ~ In 58 t -> split_delim t = None.
Proof.
  induction t as [|c t IH]; intros A B; [reflexivity|]. cbn [split_delim In] in *. rewrite IH by tauto.
  replace ((c =? 61) || (c =? 58)) with false; [reflexivity|]. symmetry. apply Bool.orb_false_iff. split; apply Z.eqb_neq; intros ->; tauto.
Qed.
(** A line that is not idle, not indented, and is neither a header nor an option. *)
Lemma bad_line st c r : ~ white_char c -> c <> 35 -> c <> 59 -> c <> 91 -> ~ In 61 (c :: r) -> ~ In 58 (c :: r) -> 0 <= r_indent st ->
  match read_line st (c :: r) with Some st' => r_error st' = true | None => True end.
Proof.
  intros W N1 N2 N3 D1 D2 IP. unfold read_line.
  destruct (strip_split is_white (c :: r)) as (a & b & E & F & _ & _).
  assert (X : exists q, strip is_white (c :: r) = c :: q).
  { destruct a as [|x a].
    - destruct (strip is_white (c :: r)) as [|y q]; [|exists q; cbn [app] in E; congruence].
      exfalso. cbn [app] in E, F. subst b. apply Forall_cons_iff in F. destruct F as [F _]. apply W. now apply white_iff.
    - exfalso. cbn [app] in E, F. assert (x = c) as -> by congruence. apply Forall_cons_iff in F. destruct F as [F _]. apply W. now apply white_iff. }
  destruct X as (q & X). rewrite X in *. replace (is_comment (c :: q)) with false.
  2: { symmetry. cbn [is_comment]. apply Bool.orb_false_iff. split; now apply Z.eqb_neq. }
  replace (indent_of (c :: r)) with 0 by (cbn [indent_of]; now rewrite (white_no _ W)).
  replace (r_indent st <? 0) with false by (symmetry; apply Z.ltb_ge; exact IP).
  assert (HD : header_of (c :: q) = None) by (cbn [header_of]; now rewrite (proj2 (Z.eqb_neq c 91) N3)).
  assert (SD : split_delim (c :: q) = None).
  { apply split_delim_none; intros I; [apply D1|apply D2]; rewrite E; apply in_or_app; right; apply in_or_app; now left. }
  cbv iota. rewrite HD, SD. destruct (r_section st) eqn:RS; [destruct (r_option st)|]; cbn [with_indent r_section]; rewrite RS; cbn; auto.
Qed.
Lemma bad_somewhere c r post : ~ white_char c -> c <> 35 -> c <> 59 -> c <> 91 -> ~ In 61 (c :: r) -> ~ In 58 (c :: r) ->
  forall pre st, 0 <= r_indent st ->
  let '(st', x) := read_lines st (pre ++ (c :: r) :: post) in x || r_error st' = true.
Proof.
  intros W N1 N2 N3 D1 D2. induction pre as [|l pre IH]; intros st IP; cbn [app read_lines].
  - pose proof (bad_line st c r W N1 N2 N3 D1 D2 IP) as B. destruct (read_line st (c :: r)) as [st1|]; [|reflexivity].
    destruct (keeps_errors post st1 B) as [X|X]; destruct (read_lines st1 post) as [st2 x]; cbn [fst snd] in X; rewrite X; [reflexivity|apply Bool.orb_true_r].
  - destruct (read_line st l) as [st1|] eqn:R; [|reflexivity]. apply IH. exact (keeps_indent _ _ _ R IP).
Qed.
Lemma idle_run pre post : Forall idle pre -> read_lines reader_init (pre ++ post) = read_lines reader_init post.
Proof. induction 1 as [|l pre I _ IH]; [reflexivity|]. cbn [app read_lines]. now rewrite (idle_fresh _ I). Qed.
