(** * Which files are converted: C53, C54. *)
From Coq Require Import Ascii.
From Verif Require Import PyBase PyDict PyVal MainModel ControlsModel ControlsSpec ControlsProofs SourcesModel SourcesSpec.
Local Open Scope string_scope.
Local Open Scope list_scope.
Local Open Scope Z_scope.

Lemma chars_app a b : chars (a ++ b)%string = chars a ++ chars b.
Proof. induction a as [|c a IH]; cbn; [reflexivity|]. unfold chars in IH. now rewrite IH. Qed.
Lemma chars_inj a b : chars a = chars b -> a = b.
Proof.
  revert b. induction a as [|c a IH]; intros [|e b] H; cbn in H; try discriminate; [reflexivity|]. injection H as -> H. f_equal. now apply IH.
Qed.
Lemma string_of_chars l : chars (string_of_list_ascii l) = l.
Proof. apply list_ascii_of_string_of_list_ascii. Qed.

(** ** Splitting *)
Lemma split_slash_joined s : joined slash (map chars (split_slash s)) (chars s).
Proof.
  induction s as [|c s IH]; cbn [split_slash].
  - constructor. tauto.
  - destruct (Ascii.eqb_spec c slash) as [->|N].
    + cbn [map chars list_ascii_of_string]. apply (more_words slash [] _ (chars s)); [tauto|exact IH].
    + destruct (split_slash s) as [|w ws]; cbn [map] in *; [inversion IH|]. cbn [chars list_ascii_of_string].
      inversion IH as [w' NI E1 E2|w' ws' t NI J E1 E2]; subst.
      * replace ws with (@nil string) by (destruct ws; [reflexivity|discriminate]). cbn [map].
        unfold chars in *. rewrite <- E2. constructor. intros [Q|Q]; [congruence|contradiction].
      * unfold chars in *. rewrite <- E2. change (joined slash ((c :: list_ascii_of_string w) :: map list_ascii_of_string ws) ((c :: list_ascii_of_string w) ++ slash :: t)).
        constructor; [|exact J]. intros [Q|Q]; [congruence|contradiction].
Qed.
Lemma split_space_joined s : joined 32 (split_space s) s.
Proof.
  induction s as [|c s IH]; cbn [split_space].
  - constructor. tauto.
  - destruct (Z.eqb_spec c 32) as [->|N].
    + apply (more_words 32 [] _ s); [tauto|exact IH].
    + destruct (split_space s) as [|w ws]; [inversion IH|]. inversion IH as [w' NI E1 E2|w' ws' t NI J E1 E2]; subst.
      * constructor. intros [Q|Q]; [congruence|contradiction].
      * change (joined 32 ((c :: w) :: ws) ((c :: w) ++ 32 :: t)). constructor; [|exact J]. intros [Q|Q]; [congruence|contradiction].
Qed.
Lemma joined_unique {A} (sep : A) (dec : forall a b : A, {a = b} + {a <> b}) : forall ws t, joined sep ws t -> forall ws', joined sep ws' t -> ws = ws'.
Proof.
  assert (Q : forall a b a' b' : list A, ~ In sep a -> ~ In sep a' -> a ++ sep :: b = a' ++ sep :: b' -> a = a' /\ b = b').
  { induction a as [|x a IH]; intros b [|y a'] b' N N' E; cbn [app] in E.
    - injection E as ->. auto.
    - injection E as <- E. elim N'. now left.
    - injection E as -> E. elim N. now left.
    - injection E as -> E. destruct (IH b a' b') as (-> & ->); auto; intros I; [apply N|apply N']; now right. }
  induction 1 as [w N|w ws t N J IH]; intros ws' J'; inversion J' as [w' N' E1 E2|w' ws'' t' N' J'' E1 E2]; subst.
  - reflexivity.
  - elim N. apply in_or_app. right. now left.
  - elim N'. apply in_or_app. right. now left.
  - destruct (Q _ _ _ _ N' N E2) as (-> & ->). f_equal. now apply IH.
Qed.

(** ** Names *)
Lemma normalise_leads comps : forall acc, leads (rev acc) comps (normalise acc comps).
Proof.
  induction comps as [|c r IH]; intros acc; cbn [normalise]; [constructor|].
  destruct (String.eqb_spec c "") as [->|N1]; cbn [orb]; [constructor; auto|].
  destruct (String.eqb_spec c ".") as [->|N2]; [constructor; auto|].
  destruct (String.eqb_spec c "..") as [->|N3].
  - destruct acc as [|n acc]; cbn [tl rev]; [apply top; apply (IH [])|apply up; apply IH].
  - apply down; auto. apply (IH (c :: acc)).
Qed.
Lemma abspath_stands cwd s : stands_for cwd s (abspath cwd s).
Proof.
  exists (split_slash s). split; [apply split_slash_joined|]. unfold abspath. destruct s as [|c s].
  - cbn [split_slash]. constructor; [now left|]. pose proof (normalise_leads [] (rev cwd)) as H. rewrite rev_involutive in H. exact H.
  - destruct (Ascii.eqb c slash); [apply (normalise_leads _ [])|]. pose proof (normalise_leads (split_slash (String c s)) (rev cwd)) as H. rewrite rev_involutive in H. exact H.
Qed.
Lemma leads_proper p comps q : leads p comps q -> proper p -> proper q.
Proof.
  induction 1 as [p|p c r q _ _ IH|p n r q _ IH|r q _ IH|p c r q N1 N2 N3 _ IH]; intros P; auto; apply IH.
  - apply Forall_app in P. tauto.
  - apply Forall_app. split; [exact P|]. constructor; [auto|constructor].
Qed.
Lemma leads_normalise p comps q : leads p comps q -> q = normalise (rev p) comps.
Proof.
  induction 1 as [p|p c r q S _ IH|p n r q _ IH|r q _ IH|p c r q N1 N2 N3 _ IH]; cbn [normalise].
  - now rewrite rev_involutive.
  - destruct S as [-> | ->]; exact IH.
  - rewrite rev_unit. exact IH.
  - exact IH.
  - rewrite (proj2 (String.eqb_neq c "") N1), (proj2 (String.eqb_neq c ".") N2), (proj2 (String.eqb_neq c "..") N3). cbn [orb]. now rewrite rev_unit in IH.
Qed.
Lemma leads_unique p comps q q' : leads p comps q -> leads p comps q' -> q = q'.
Proof. intros A B. rewrite (leads_normalise _ _ _ A). symmetry. exact (leads_normalise _ _ _ B). Qed.
Lemma map_chars_inj a : forall b, map chars a = map chars b -> a = b.
Proof. induction a as [|x a IH]; intros [|y b] H; cbn in H; try discriminate; [reflexivity|]. injection H as H1 H2. f_equal; [now apply chars_inj|now apply IH]. Qed.
Lemma stands_unique cwd s p q : stands_for cwd s p -> stands_for cwd s q -> p = q.
Proof.
  intros (c1 & J1 & L1) (c2 & J2 & L2). pose proof (joined_unique slash Ascii.ascii_dec _ _ J1 _ J2) as E. apply map_chars_inj in E. subst c2.
  exact (leads_unique _ _ _ _ L1 L2).
Qed.

(** ** C53: the sources are what the user names *)

(** A name stands for exactly one path, which is absolute and has no "." or ".." in it. *)
Theorem C53_names : forall cwd s, proper cwd ->
  stands_for cwd s (abspath cwd s) /\ proper (abspath cwd s) /\ forall p, stands_for cwd s p -> p = abspath cwd s.
Proof.
  intros cwd s P. split; [apply abspath_stands|]. split; [|intros p H; exact (stands_unique _ _ _ _ H (abspath_stands cwd s))].
  destruct (abspath_stands cwd s) as (c & _ & L). apply (leads_proper _ _ _ L). destruct s as [|x s]; [exact P|]. destruct (Ascii.eqb x slash); [constructor|exact P].
Qed.
Print Assumptions C53_names.

(** Names on the command line: those that are files, in order, and nothing else.  (A single name
    of a directory is the other case.) *)
Theorem C53_listed : forall cwd d args ext typed,
  (forall s p, args = [s] -> stands_for cwd s p -> forall ns, d p <> KDir ns) ->
  existing cwd d args (make_list_of_source_files cwd d args ext typed).
Proof.
  intros cwd d args ext typed H. unfold make_list_of_source_files.
  assert (D : src_is_dir cwd d args = false).
  { unfold src_is_dir. destruct args as [|a [|b r]]; try reflexivity. specialize (H a _ eq_refl (abspath_stands cwd a)).
    unfold isdir. destruct (d (abspath cwd a)) eqn:E; try apply andb_false_r. elim (H names). reflexivity. }
  rewrite D. clear. induction args as [|a args IH]; cbn [map filter]; [constructor|]. unfold isfile at 1. destruct (d (abspath cwd a)) eqn:E.
  - apply (no_file cwd d a (abspath cwd a)); [apply abspath_stands|congruence|exact IH].
  - apply a_file; [apply abspath_stands|exact E|exact IH].
  - apply (no_file cwd d a (abspath cwd a)); [apply abspath_stands|congruence|exact IH].
Qed.
Print Assumptions C53_listed.

Lemma indexes_ok n : forall words nums, Forall2 is_int_text words nums ->
  exists is, indexes n words = Ok is /\ forall files, n = zlen files -> picks files nums (map (fun i => nth (Z.to_nat i) files []) is).
Proof.
  induction 1 as [|w i words nums W F (is & E & P)]; [exists []; split; [reflexivity|intros; constructor]|].
  apply py_int_iff in W. cbn [indexes]. rewrite W. cbn [bind]. rewrite E. cbn [bind]. eexists. split; [reflexivity|].
  intros files L. specialize (P files L). destruct (Z.ltb_spec 0 i) as [A|A]; cbn [andb].
  - destruct (Z.leb_spec i n) as [B|B].
    + cbn [map]. apply pick_one; [lia| |exact P]. assert (LT : (Z.to_nat (i - 1) < length files)%nat) by (unfold zlen in L; lia).
      rewrite (nth_error_nth' files [] LT). reflexivity.
    + apply pick_over; [right; lia|exact P].
  - apply pick_over; [left; lia|exact P].
Qed.
Lemma indexes_inv n : forall words is, indexes n words = Ok is -> exists nums, Forall2 is_int_text words nums.
Proof.
  induction words as [|w words IH]; intros is H; [exists []; constructor|]. cbn [indexes] in H.
  destruct (py_int w) as [i|e] eqn:W; cbn [bind] in H; [|discriminate]. destruct (indexes n words) as [is'|e]; cbn [bind] in H; [|discriminate].
  destruct (IH is' eq_refl) as (nums & F). exists (i :: nums). constructor; [now apply py_int_iff|exact F].
Qed.

(** A directory: the entries of the shown list whose numbers are typed, in the order typed; if
    anything else than numbers separated by single spaces is typed, none. *)
Theorem C53_chosen : forall cwd d dir p ns ext typed,
  stands_for cwd dir p -> d p = KDir ns -> shown d p ext <> [] ->
  let files := make_list_of_source_files cwd d [dir] ext typed in
  (forall nums, answer_says typed nums -> picks (shown d p ext) nums files) /\
  ((forall nums, ~ answer_says typed nums) -> files = []).
Proof.
  intros cwd d dir p ns ext typed ST D NE. assert (p = abspath cwd dir) as -> by exact (stands_unique _ _ _ _ ST (abspath_stands cwd dir)).
  unfold make_list_of_source_files, src_is_dir, isfile, isdir. rewrite D. cbn [negb andb hd]. cbv zeta.
  set (files := shown d (abspath cwd dir) ext) in *. unfold choose. destruct files as [|f0 fr] eqn:EF; [congruence|]. rewrite <- EF in *. clear NE. split.
  - intros nums (words & J & F). pose proof (joined_unique 32 Z.eq_dec _ _ J _ (split_space_joined typed)) as ->.
    destruct (indexes_ok (zlen files) _ _ F) as (is & E & P). rewrite E. now apply P.
  - intros H. destruct (indexes (zlen files) (split_space typed)) as [is|e] eqn:E; [|reflexivity].
    destruct (indexes_inv _ _ _ E) as (nums & F). elim (H nums). exists (split_space typed). split; [apply split_space_joined|exact F].
Qed.
Print Assumptions C53_chosen.

(** ** C54: a directory offers its RTCM files *)
Lemma plain_matches q : (forall c, In c q -> c <> chr 42 /\ c <> chr 63 /\ c <> chr 91) ->
  forall fuel n, (length q < fuel)%nat -> fnmatch fuel q n = true <-> n = q.
Proof.
  intros P. induction q as [|c q IH]; intros [|k] n L; try lia; cbn [fnmatch].
  - destruct n; split; congruence.
  - destruct (P c (or_introl eq_refl)) as (N1 & N2 & N3).
    destruct (Ascii.eqb_spec c (chr 42)); [contradiction|]. destruct n as [|x n]; [split; discriminate|].
    destruct (Ascii.eqb_spec c (chr 63)); [contradiction|]. destruct (Ascii.eqb_spec c (chr 91)); [contradiction|].
    rewrite andb_true_iff, Ascii.eqb_eq, (IH (fun y I => P y (or_intror I)) k n) by (cbn [length] in L; lia).
    split; [intros (-> & ->); reflexivity|intros E; injection E as -> ->; auto].
Qed.
Lemma star_matches q : (forall c, In c q -> c <> chr 42 /\ c <> chr 63 /\ c <> chr 91) ->
  forall n fuel, (S (length q) + length n < fuel)%nat -> fnmatch fuel (chr 42 :: q) n = true <-> exists a, n = a ++ q.
Proof.
  intros P. induction n as [|x n IH]; intros [|k] L; cbn [length] in L; try lia; cbn [fnmatch]; rewrite Ascii.eqb_refl, orb_true_iff, (plain_matches q P k) by lia.
  - split; [intros [<-|X]; [now exists []|discriminate]|]. intros ([|] & E); [left; exact E|discriminate].
  - rewrite (IH k) by lia. split.
    + intros [<-|(a & ->)]; [now exists []|now exists (x :: a)].
    + intros ([|y a] & E); [left; exact E|]. injection E as <- E. right. now exists a.
Qed.
Lemma has_magic_plain s : plain s -> has_magic s = false.
Proof.
  intros P. unfold has_magic. destruct (existsb magic_char (chars s)) eqn:E; [|reflexivity]. apply existsb_exists in E.
  destruct E as (c & I & M). destruct (P c I) as (N1 & N2 & N3). unfold magic_char in M. rewrite !orb_true_iff, !Ascii.eqb_eq in M. tauto.
Qed.
Lemma matches_extension ext name : plain ext -> matches ("*." ++ ext) name = true <-> has_extension ext name.
Proof.
  intros P. unfold matches. change (chars ("*." ++ ext)) with (chr 42 :: (dot :: chars ext)). cbn [length]. rewrite star_matches; [| |cbn [length]; lia].
  - split.
    + intros (a & E). exists (string_of_list_ascii a). apply chars_inj. rewrite E, chars_app, string_of_chars. reflexivity.
    + intros (stem & ->). exists (chars stem). now rewrite chars_app.
  - intros c [<-|I]; [repeat split; discriminate|exact (P c I)].
Qed.
Lemma plain_path p : Forall plain p -> existsb has_magic (rev p) = false.
Proof.
  intros F. destruct (existsb has_magic (rev p)) eqn:E; [|reflexivity]. apply existsb_exists in E. destruct E as (c & I & M).
  rewrite <- in_rev in I. rewrite Forall_forall in F. rewrite (has_magic_plain c (F c I)) in M. discriminate.
Qed.
Lemma starts_dot_iff n : negb (starts_dot n) = true <-> visible n.
Proof.
  unfold visible. destruct n as [|c n]; cbn [starts_dot]; [split; [discriminate|reflexivity]|].
  destruct (Ascii.eqb_spec c dot) as [->|N]; cbn [negb]; split; try discriminate; try congruence. intros H. now elim (H n).
Qed.

(** What is true: when neither the path of the directory nor the extension contains a character
    of patterns, the list that is shown consists of exactly the visible entries of the directory
    that have the extension, each once.  Missing: other directories, and entries that are not
    files. *)
Theorem C54_offered_partial : forall d dir ext names, Forall plain dir -> plain ext -> d dir = KDir names -> NoDup names ->
  NoDup (shown d dir ext) /\
  forall p, In p (shown d dir ext) <-> exists n, p = dir ++ [n] /\ In n names /\ has_extension ext n /\ visible n.
Proof.
  intros d dir ext names PD PE D ND. unfold shown. cbn [iglob].
  rewrite (plain_path dir PD), rev_involutive. cbn [flat_map]. rewrite app_nil_r.
  assert (M : has_magic ("*." ++ ext) = true) by reflexivity. rewrite M. clear M.
  unfold glob1. rewrite D. assert (S : starts_dot ("*." ++ ext) = false) by reflexivity. rewrite S. clear S. split.
  - apply FinFun.Injective_map_NoDup; [intros a b E; apply app_inv_head in E; congruence|]. apply NoDup_filter, NoDup_filter, ND.
  - intros p. rewrite in_map_iff. split.
    + intros (n & <- & I). apply filter_In in I. destruct I as (I & MT). apply filter_In in I. destruct I as (I & V).
      exists n. split; [reflexivity|]. split; [exact I|]. split; [now apply matches_extension|now apply starts_dot_iff].
    + intros (n & -> & I & E & V). exists n. split; [reflexivity|]. apply filter_In. split; [apply filter_In; split; [exact I|now apply starts_dot_iff]|now apply matches_extension].
Qed.
Print Assumptions C54_offered_partial.

(** A directory "d[1]" is taken for a pattern: its own files are not offered, those of its
    neighbour "d1" are. *)
Definition bracket_disk : disk := fun p =>
  match p with
  | ["home"] => KDir ["d1"; "d[1]"]
  | ["home"; "d1"] => KDir ["other.rtcm3"]
  | ["home"; "d[1]"] => KDir ["mine.rtcm3"]
  | ["home"; "d1"; "other.rtcm3"] => KFile
  | ["home"; "d[1]"; "mine.rtcm3"] => KFile
  | _ => KNone
  end.
Theorem C54_pattern_in_path_refuted : exists cwd d dir p ext typed,
  stands_for cwd dir p /\ (exists names, d p = KDir names /\ In "mine.rtcm3" names) /\ d (p ++ ["mine.rtcm3"]) = KFile /\
  has_extension ext "mine.rtcm3" /\ visible "mine.rtcm3" /\ ~ In (p ++ ["mine.rtcm3"]) (shown d p ext) /\
  make_list_of_source_files cwd d [dir] ext typed = [["home"; "d1"; "other.rtcm3"]].
Proof.
  exists ["home"], bracket_disk, "d[1]", ["home"; "d[1]"], "rtcm3", [49].
  split; [exact (abspath_stands ["home"] "d[1]")|]. split; [exists ["mine.rtcm3"]; split; [reflexivity|now left]|]. split; [reflexivity|].
  split; [exists "mine"; reflexivity|]. split; [intros r; discriminate|]. split; [|vm_compute; reflexivity].
  assert (E : shown bracket_disk ["home"; "d[1]"] "rtcm3" = [["home"; "d1"; "other.rtcm3"]]) by (vm_compute; reflexivity).
  rewrite E. intros [Q|[]]. discriminate.
Qed.
Print Assumptions C54_pattern_in_path_refuted.

(** A subdirectory with the extension in its name is offered, and can be chosen, as a source. *)
Definition folder_disk : disk := fun p =>
  match p with
  | ["home"] => KDir ["a.rtcm3"; "old.rtcm3"; ".b.rtcm3"; "c.txt"]
  | ["home"; "a.rtcm3"] | ["home"; ".b.rtcm3"] | ["home"; "c.txt"] => KFile
  | ["home"; "old.rtcm3"] => KDir []
  | _ => KNone
  end.
Theorem C54_folder_offered_refuted : exists cwd d dir ext typed p,
  In p (make_list_of_source_files cwd d [dir] ext typed) /\ d p <> KFile.
Proof.
  exists ["home"], folder_disk, ".", "rtcm3", [50], ["home"; "old.rtcm3"]. split; [vm_compute; now left|vm_compute; discriminate].
Qed.
Print Assumptions C54_folder_offered_refuted.

Example C54_nonvacuous : Forall plain ["home"] /\ plain "rtcm3" /\
  shown folder_disk ["home"] "rtcm3" = [["home"; "a.rtcm3"]; ["home"; "old.rtcm3"]].
Proof.
  assert (X : forall s, has_magic s = false -> plain s).
  { intros s H c I. unfold has_magic in H. assert (M : magic_char c = false).
    { destruct (magic_char c) eqn:E; [|reflexivity]. rewrite (proj2 (existsb_exists _ _)) in H; [discriminate|]. exists c. auto. }
    unfold magic_char in M. rewrite !orb_false_iff, !Ascii.eqb_neq in M. tauto. }
  split; [constructor; [apply X; reflexivity|constructor]|]. split; [apply X; reflexivity|vm_compute; reflexivity].
Qed.

(** "2 1 7 2" of two; "1  2" (two spaces) is not understood; names with "..", "./". *)
Example C53_nonvacuous :
  make_list_of_source_files ["home"] folder_disk ["."] "rtcm3" (ustr "2 1 7 +2 0_1") =
    [["home"; "old.rtcm3"]; ["home"; "a.rtcm3"]; ["home"; "old.rtcm3"]; ["home"; "a.rtcm3"]] /\
  make_list_of_source_files ["home"] folder_disk ["."] "rtcm3" (ustr "1  2") = [] /\
  (exists nums, answer_says (ustr "2 1 7 2") nums) /\
  make_list_of_source_files ["home"; "x"] folder_disk ["../a.rtcm3"; "none"; "/home/./c.txt"; "../../../home//a.rtcm3"; "/home"] "rtcm3" [] =
    [["home"; "a.rtcm3"]; ["home"; "c.txt"]; ["home"; "a.rtcm3"]].
Proof.
  split; [vm_compute; reflexivity|]. split; [vm_compute; reflexivity|]. split; [|vm_compute; reflexivity].
  assert (E : indexes 9 (split_space (ustr "2 1 7 2")) = Ok [1; 0; 6; 1]) by (vm_compute; reflexivity).
  destruct (indexes_inv _ _ _ E) as (nums & F). exists nums, (split_space (ustr "2 1 7 2")). split; [apply split_space_joined|exact F].
Qed.
