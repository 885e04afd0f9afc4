(** * Where products are found: C66. *)
From Coq Require Import Ascii DecimalString.
From Verif Require Import PyBase PyDict JsonModel MainModel NamesSpec NamesProofs.
Local Open Scope string_scope.
Local Open Scope list_scope.
Local Open Scope Z_scope.

(** ** Stems *)
Lemma dots_only s : only_dots s = true <-> Forall (eq "."%char) (letters s).
Proof.
  unfold letters. induction s as [|c s IH]; cbn [only_dots list_ascii_of_string]; [split; [constructor|reflexivity]|]. rewrite andb_true_iff, Ascii.eqb_eq, IH. change dot with "."%char.
  split; [intros (-> & F); now constructor|]. intros F. inversion F; subst. auto.
Qed.
Lemma before_no s : ~ In "."%char (letters s) -> before_last_dot s = None.
Proof.
  unfold letters. induction s as [|c s IH]; cbn [before_last_dot list_ascii_of_string]; [reflexivity|]. cbn [In]. intros N. rewrite IH by tauto.
  destruct (Ascii.eqb c dot) eqn:E; [|reflexivity]. apply Ascii.eqb_eq in E. elim N. left. exact E.
Qed.
Lemma before_some s r : before_last_dot s = Some r -> exists e, s = (r ++ "." ++ e)%string /\ ~ In "."%char (letters e).
Proof.
  revert r. induction s as [|c s IH]; cbn [before_last_dot]; intros r; [discriminate|]. destruct (before_last_dot s) as [x|] eqn:B.
  - intros [= <-]. destruct (IH x eq_refl) as (e & -> & N). exists e. auto.
  - destruct (Ascii.eqb c dot) eqn:E; [|discriminate]. apply Ascii.eqb_eq in E. intros [= <-]. subst c. exists s. split; [reflexivity|].
    clear IH. unfold letters. induction s as [|c s IH]; cbn [list_ascii_of_string In]; [tauto|]. cbn [before_last_dot] in B. destruct (before_last_dot s); [discriminate|].
    destruct (Ascii.eqb c dot) eqn:E; [discriminate|]. apply Ascii.eqb_neq in E. intros [H|H]; [apply E; exact H|]. exact (IH eq_refl H).
Qed.
Lemma before_app s e : ~ In "."%char (letters e) -> before_last_dot (s ++ "." ++ e) = Some s.
Proof.
  intros N. induction s as [|c s IH]; cbn [String.append before_last_dot] in *; [now rewrite (before_no _ N)|]. now rewrite IH.
Qed.
Lemma dots_app a b : Forall (eq "."%char) (letters a) -> ~ In "."%char (letters b) -> root_of (a ++ b) = (a ++ b)%string.
Proof.
  intros A B. unfold root_of. destruct (before_last_dot (a ++ b)) as [r|] eqn:E; [|reflexivity].
  assert (X : only_dots r = true); [|now rewrite X]. revert r E. induction a as [|c a IH]; intros r E; cbn [String.append] in E.
  - rewrite (before_no _ B) in E. discriminate.
  - unfold letters in A. cbn [list_ascii_of_string] in A. inversion A; subst. cbn [before_last_dot] in E. destruct (before_last_dot (a ++ b)) as [x|].
    + injection E as <-. cbn [only_dots]. rewrite (IH H2 x eq_refl). reflexivity.
    + cbn in E. injection E as <-. reflexivity.
Qed.

Lemma assoc (a b c : string) : ((a ++ b) ++ c = a ++ b ++ c)%string.
Proof. induction a as [|x a IH]; cbn [String.append]; [reflexivity|]. now rewrite IH. Qed.

(** The stem is unique and is what the code computes. *)
Theorem C66_stem : forall name stem, stem_of name stem <-> root_of name = stem.
Proof.
  intros name stem. split.
  - intros [s e D N|d r D N]; [|now apply dots_app]. unfold root_of. rewrite (before_app _ _ N). destruct (only_dots s) eqn:O; [|reflexivity].
    elim D. now apply dots_only.
  - intros <-. unfold root_of. destruct (before_last_dot name) as [r|] eqn:B.
    + destruct (before_some _ _ B) as (e & E & N). destruct (only_dots r) eqn:O.
      * subst name. apply dots_only in O. replace (r ++ "." ++ e)%string with ((r ++ ".") ++ e)%string by apply assoc.
        apply stem_whole; [|exact N]. clear - O. induction r as [|c r IH]; cbn in *; [repeat constructor|]. inversion O; subst. constructor; auto.
      * subst name. apply stem_extension; [|exact N]. rewrite <- dots_only. congruence.
    + apply (stem_whole "" name); [constructor|]. clear - B. unfold letters. induction name as [|c s IH]; cbn [list_ascii_of_string In]; [tauto|].
      cbn [before_last_dot] in B. destruct (before_last_dot s); [discriminate|]. destruct (Ascii.eqb c dot) eqn:E; [discriminate|]. apply Ascii.eqb_neq in E.
      intros [H|H]; [apply E; exact H|exact (IH eq_refl H)].
Qed.
Print Assumptions C66_stem.

(** The work folder is beside the source and is called after its stem and the format; the log in
    it is called after the stem. *)
Theorem C66_folder : forall dir name stem mode, stem_of name stem ->
  work_folder (dir ++ [name]) mode = dir ++ [(stem ++ "-" ++ mode)%string] /\ log_file_name (dir ++ [name]) = (stem ++ "-log.txt")%string.
Proof.
  intros dir name stem mode S. apply C66_stem in S. unfold work_folder, log_file_name. rewrite removelast_last, last_last, S. auto.
Qed.
Print Assumptions C66_folder.

(** The table of the JSON printer has exactly the places of the specification. *)
Theorem C66_table : forall num sub file, json_place num sub file <-> exists s, zget JSON_SPEC num = Some s /\ js_dir s = sub /\ js_file s = file.
Proof. intros. split; [apply place_spec|]. intros (s & E & <- & <-). now apply spec_place. Qed.
Print Assumptions C66_table.

(** [make_opath] names exactly these places. *)
Theorem C66_opath : forall dir name stem num mode, stem_of name stem ->
  let fld := dir ++ [(stem ++ "-" ++ mode)%string] in
  (forall sub file, json_place num sub file -> make_opath (dir ++ [name]) num mode = (fld ++ [sub; file], fld, fld ++ [(stem ++ "-log.txt")%string])) /\
  ((forall sub file, ~ json_place num sub file) ->
     make_opath (dir ++ [name]) num mode = (fld ++ ["UNDEF"; ("msg" ++ dec num ++ ".json")%string], fld, fld ++ [(stem ++ "-log.txt")%string])).
Proof.
  intros dir name stem num mode S fld. apply C66_stem in S. unfold make_opath. rewrite removelast_last, last_last, S. cbv zeta. fold fld. split.
  - intros sub file P. destruct (place_spec _ _ _ P) as (s & E & <- & <-). now rewrite E.
  - intros N. destruct (zget JSON_SPEC num) as [s|] eqn:E; [|reflexivity]. elim (N _ _ (spec_place _ _ E)).
Qed.
Print Assumptions C66_opath.

(** No two message numbers share a file, and each has one place. *)
Theorem C66_distinct : forall n n' sub sub' file file', json_place n sub file -> json_place n' sub' file' ->
  (n = n' -> sub = sub' /\ file = file') /\ (sub = sub' /\ file = file' -> n = n').
Proof.
  intros n n' sub sub' file file' P P'. destruct (place_spec _ _ _ P) as (s & E & <- & <-). destruct (place_spec _ _ _ P') as (s' & E' & <- & <-).
  split; [intros <-; split; congruence|]. intros (A & B). 
  assert (F : forallb (fun a => forallb (fun b => (fst a =? fst b) || negb (String.eqb (js_file (snd a)) (js_file (snd b)))) JSON_SPEC) JSON_SPEC = true) by (vm_compute; reflexivity).
  assert (IN : forall k x, zget JSON_SPEC k = Some x -> In (k, x) JSON_SPEC).
  { unfold zget. generalize JSON_SPEC. induction l as [|[q y] l IH]; cbn [dget]; [discriminate|]. intros k x. destruct (k =? q) eqn:Q; [|intros H; right; auto].
    apply Z.eqb_eq in Q. intros [= ->]. left. congruence. }
  rewrite forallb_forall in F. specialize (F _ (IN _ _ E)). rewrite forallb_forall in F. specialize (F _ (IN _ _ E')). cbn [fst snd] in F.
  apply orb_prop in F as [F|F]; [now apply Z.eqb_eq|]. rewrite B, String.eqb_refl in F. discriminate.
Qed.
Print Assumptions C66_distinct.

(** Cases. *)
Example C66_nonvacuous :
  json_place 1046 "EPH" "GAL-EPH-1046.json" /\ json_place 1137 "MSM7" "NAVIC-MSM7-1137.json" /\ json_place 1008 "BASE" "AntDescSer-1008.json" /\
  stem_of "a.b.rtcm3" "a.b" /\ stem_of "..x" "..x" /\ stem_of "a." "a" /\ stem_of "a" "a" /\ ~ stem_of ".x" "" /\
  make_opath ["d"; "log.1.rtcm3"] 1005 "JSON" = (["d"; "log.1-JSON"; "BASE"; "RefPoint-1005.json"], ["d"; "log.1-JSON"], ["d"; "log.1-JSON"; "log.1-log.txt"]) /\
  make_opath ["d"; "log"] 4 "JSON-B" = (["d"; "log-JSON-B"; "UNDEF"; "msg4.json"], ["d"; "log-JSON-B"], ["d"; "log-JSON-B"; "log-log.txt"]).
Proof.
  split; [apply places_ok; vm_compute; tauto|]. split; [apply places_ok; vm_compute; tauto|]. split; [apply places_ok; vm_compute; tauto|].
  rewrite !C66_stem. split; [reflexivity|]. split; [reflexivity|]. split; [reflexivity|]. split; [reflexivity|]. split; [vm_compute; discriminate|]. split; reflexivity.
Qed.
