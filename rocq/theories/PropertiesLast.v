(** * The result of converting any list of sources: C42.
    Sources may share work folders and may be given several times; the two ways in which
    one conversion can reach into another one's folder (a source inside a work folder, a work
    folder inside a work folder) are excluded. *)
From Verif Require Import PyBase PyDict PyFloat PyVal TestData DecoderModel MargoModel JsonModel PrinterModel PrinterSpec PropertiesPrinter
  PropertiesMargo PropertiesJson NamesSpec NamesProofs MainModel MainSpec MainProofs PropertiesMain PropertiesFiles.
Local Open Scope string_scope.
Local Open Scope list_scope.
Local Open Scope Z_scope.

(** No source and no work folder lies inside one of the work folders. *)
Definition not_nested (mode : string) (files : list path) : Prop :=
  forall x y, In x files -> In y files ->
    inside (work_folder x mode) y = false /\ inside (work_folder x mode) (work_folder y mode) = false.

Section Last.
Variable ord : list (subprinter world) -> list (subprinter world).
Variable mode : string.
Variable ctl : boxed_controls.
Variable env : path -> os.
Notation conv := (convert_file ord mode ctl env).
Notation all := (convert_all ord mode ctl env).
Notation fld src := (work_folder src mode).

Lemma untouched p : forall files f, (forall src, In src files -> inside (fld src) p = false) -> all f files p = f p.
Proof.
  induction files as [|src files IH] using rev_ind; intros f H; [reflexivity|].
  rewrite convert_all_snoc, convert_outside by (apply H, in_or_app; right; now left).
  apply IH. intros x X. apply H, in_or_app. now left.
Qed.
(** A regular file in the place of the work folder: nothing happens there. *)
Lemma blocked d p : forall files f,
  (forall src, In src files -> fld src = d \/ inside (fld src) p = false) ->
  (forall src, In src files -> inside (fld src) d = false) -> f d <> None -> all f files p = f p.
Proof.
  induction files as [|src files IH] using rev_ind; intros f H D N; [reflexivity|].
  assert (E : all f files p = f p).
  { apply IH; auto; intros x X; [apply H|apply D]; apply in_or_app; now left. }
  assert (G : all f files d = f d) by (apply untouched; intros x X; apply D, in_or_app; now left).
  rewrite convert_all_snoc. destruct (H src) as [Q|Q]; [apply in_or_app; right; now left| |now rewrite convert_outside].
  unfold convert_file. rewrite Q, G. destruct (f d); [exact E|congruence].
Qed.

(** The content of a work folder is what the last source with this work folder gives,
    converted alone; everything outside the work folders is as before. *)
Theorem last_state f before src after p : not_nested mode (before ++ src :: after) ->
  (forall x, In x after -> fld x <> fld src) -> inside (fld src) p = true ->
  all f (before ++ src :: after) p = fst (conv f src) p.
Proof.
  intros NN L I.
  assert (Is : In src (before ++ src :: after)) by (apply in_or_app; right; now left).
  assert (B : forall x, In x before -> In x (before ++ src :: after)) by (intros x X; apply in_or_app; now left).
  assert (A : forall x, In x after -> In x (before ++ src :: after)) by (intros x X; apply in_or_app; right; now right).
  assert (O : forall x, In x (before ++ src :: after) -> fld x = fld src \/ inside (fld x) p = false).
  { intros x X. destruct (inside (fld x) p) eqn:IX; [|now right]. left.
    destruct (inside_two _ _ _ IX I) as [Q|[Q|Q]]; [exact Q| |].
    - destruct (NN x src X Is). congruence.
    - destruct (NN src x Is X). congruence. }
  replace (before ++ src :: after) with ((before ++ [src]) ++ after) by (rewrite <- app_assoc; reflexivity).
  assert (S : forall a b g, all g (a ++ b) = all (all g a) b) by (intros; unfold convert_all; apply fold_left_app).
  rewrite S, untouched by (intros x X; destruct (O x (A x X)) as [Q|Q]; [now apply L in Q|exact Q]).
  rewrite convert_all_snoc.
  assert (Gs : all f before src = f src) by (apply untouched; intros x X; exact (proj1 (NN x src (B x X) Is))).
  assert (Gf : all f before (fld src) = f (fld src)) by (apply untouched; intros x X; exact (proj2 (NN x src (B x X) Is))).
  apply convert_local; auto.
  - exact (proj1 (NN src src Is Is)).
  - rewrite Gf. apply blocked; auto. intros x X. exact (proj2 (NN x src (B x X) Is)).
Qed.
End Last.

Theorem C42_last_wins : forall ord mode ctl env f files, not_nested mode files ->
  (forall before src after p, files = before ++ src :: after ->
     (forall x, In x after -> work_folder x mode <> work_folder src mode) ->
     inside (work_folder src mode) p = true ->
     convert_all ord mode ctl env f files p = fst (convert_file ord mode ctl env f src) p) /\
  (forall p, (forall src, In src files -> inside (work_folder src mode) p = false) ->
     convert_all ord mode ctl env f files p = f p).
Proof.
  intros ord mode ctl env f files NN. split.
  - intros before src after p -> L I. now apply last_state.
  - intros p H. now apply untouched.
Qed.
Print Assumptions C42_last_wins.

(** Every source keeps its products exactly if no later source gives its work folder another
    content. *)
Theorem C42_exact : forall ord mode ctl env f files, not_nested mode files ->
  let after := convert_all ord mode ctl env f files in
  let alone := fun src => fst (convert_file ord mode ctl env f src) in
  (forall src p, In src files -> inside (work_folder src mode) p = true -> after p = alone src p) <->
  (forall x y p, In x files -> In y files -> work_folder x mode = work_folder y mode ->
     inside (work_folder x mode) p = true -> alone x p = alone y p).
Proof.
  intros ord mode ctl env f files NN after alone. split.
  - intros H x y p X Y E I. rewrite <- (H x p X I). apply H; [exact Y|]. now rewrite <- E.
  - intros H src p S I.
    assert (L : exists before last rest, files = before ++ last :: rest /\ work_folder last mode = work_folder src mode /\
                  forall x, In x rest -> work_folder x mode <> work_folder src mode).
    { clear - S. induction files as [|z files IH] using rev_ind; [destruct S|].
      destruct (list_eq_dec string_dec (work_folder z mode) (work_folder src mode)) as [E|E].
      - exists files, z, []. split; [reflexivity|]. split; [exact E|intros x []].
      - apply in_app_or in S. destruct S as [S|[->|[]]]; [|congruence].
        destruct (IH S) as (b & l & r & -> & A & B). exists b, l, (r ++ [z]).
        split; [now rewrite <- app_assoc|]. split; [exact A|].
        intros x X. apply in_app_or in X. destruct X as [X|[<-|[]]]; auto. }
    destruct L as (b & l & r & E & Wl & R). unfold after. rewrite <- (H l src p); auto.
    + apply (proj1 (C42_last_wins ord mode ctl env f files NN) b l r p E); [rewrite Wl; exact R|now rewrite Wl].
    + rewrite E. apply in_or_app. right. now left.
    + now rewrite Wl.
Qed.
Print Assumptions C42_exact.

(** Two sources that differ in the extension only, then another one: the shared folder has the
    products of the second. *)
Definition shared : list path := [["d"; "a.rtcm3"]; ["d"; "a.bin"]; ["d"; "b.rtcm3"]].
Definition shared_files : fs :=
  files_of [(["d"; "a.rtcm3"], sample_1005); (["d"; "a.bin"], sample_1029); (["d"; "b.rtcm3"], sample_1005)].
Example C42_last_nonvacuous : not_nested "JSON" shared /\
  map (present (convert_all (fun l => l) "JSON" sample_box (fun _ => sample_os) shared_files shared))
    [["d"; "a-JSON"; "BASE"; "RefPoint-1005.json"]; ["d"; "a-JSON"; "BASE"; "TextStr-1029.json"]; ["d"; "b-JSON"; "BASE"; "RefPoint-1005.json"]]
  = [false; true; true].
Proof.
  split; [|vm_compute; reflexivity].
  intros x y X Y. cbn [In shared] in X, Y.
  destruct X as [<-|[<-|[<-|[]]]], Y as [<-|[<-|[<-|[]]]]; split; reflexivity.
Qed.
