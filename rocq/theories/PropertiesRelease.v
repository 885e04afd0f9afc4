(** * PropertiesRelease: C34 - interruption of the release itself. *)
From Coq Require Import Lia.
From Verif Require Import PyBase PyDict PyFloat PyVal PyFormat PyJson JsonSpec JsonNumbers JsonProofs BitsSpec MessageSpec
  MsmModel EphModel BaseModel DecoderModel DecoderSpec PropertiesDecoder TestData PropertiesEph
  JsonModel JsonFileSpec JsonFiles JsonDecoded PropertiesJson.
Local Open Scope string_scope.
Local Open Scope list_scope.
Local Open Scope Z_scope.

(** printers/json_printer.py:156-163 [__close], interrupted when [k] of the open files have got
    their last line; the dictionary of open files is walked in the order of creation. *)
Definition json_close_interrupted (st : json_printer) (k : nat) : json_printer :=
  {| jp_open := jp_open st; jp_files := fold_left put_end (firstn k (jp_open st)) (jp_files st) |}.

(** Not interrupted: the files are those of [json_close]. *)
Theorem C34_release_complete : forall st k, (length (jp_open st) <= k)%nat ->
  jp_files (json_close_interrupted st k) = jp_files (json_close st).
Proof. intros st k L. unfold json_close_interrupted. cbn [jp_files]. rewrite firstn_all2 by exact L. reflexivity. Qed.
Print Assumptions C34_release_complete.

(** Every object that was printed is in its file: the file holds the document of the objects of
    its number, or lacks nothing but the last line ["\r]"]; the files that were opened first are
    the complete ones.  Missing: files without the last line are not JSON. *)
Theorem C34_release_partial : forall ctl before ses st rs k,
  jp_open before = [] -> Forall (fun e => object_ok ctl (fst e)) ses ->
  print_session ctl before ses = (st, rs) ->
  forall num s, zget JSON_SPEC num = Some s ->
  match printed num ses rs with
  | [] => sget (jp_files (json_close_interrupted st k)) (json_path s) = sget (jp_files before) (json_path s)
  | x :: r => exists content position, sget (jp_files (json_close_interrupted st k)) (json_path s) = Some content /\
      nth_error (jp_open st) position = Some (num, json_path s) /\
      read_json (if (position <? k)%nat then content else content ++ [13; 93]) = Some (document ctl x r)
  end.
Proof.
  intros ctl before ses st rs k O F P num s S.
  pose proof (session_state ctl before ses F before (fun _ => []) (nothing_open ctl before O)) as A.
  rewrite P in A. destruct A as (Ok & A). specialize (A num s S). cbn [app] in A.
  pose proof (printed_ok ctl num ses F rs) as FP. pose proof (close_state ctl before st num s _ Ok S A) as C.
  assert (ND : NoDup (map snd (jp_open st))) by now apply open_ok_paths.
  assert (NK : NoDup (map snd (firstn k (jp_open st)))).
  { rewrite <- (firstn_skipn k (jp_open st)), map_app in ND. clear - ND. induction (map snd (firstn k (jp_open st))) as [|a l IH]; [constructor|].
    cbn [app] in ND. inversion ND as [|? ? NI N]; subst. constructor; [intros I; apply NI, in_or_app; now left|now apply IH]. }
  cbn [json_close_interrupted jp_files]. rewrite close_fold by exact NK.
  destruct (printed num ses rs) as [|x r]; cbn [recorded] in C, A.
  - destruct A as (G & E). replace (existsb (String.eqb (json_path s)) (map snd (firstn k (jp_open st)))) with false; [exact E|].
    symmetry. apply Bool.not_true_is_false. intros X. apply existsb_exists in X. destruct X as (p & I & Q). apply String.eqb_eq in Q. subst p.
    apply in_map_iff in I. destruct I as ((n & p) & Q & I). cbn [snd] in Q. subst p.
    assert (I' : In (n, json_path s) (jp_open st)) by (rewrite <- (firstn_skipn k (jp_open st)); apply in_or_app; now left).
    destruct Ok as (N & PS). destruct (PS _ _ I') as (s' & S' & Q). pose proof (spec_paths_distinct _ _ _ _ S S' Q) as <-.
    apply (dget_None Z.eqb z_eqb_spec) in G. apply G. apply in_map_iff. now exists (num, json_path s).
  - destruct A as (G & E). destruct (C FP) as (c & H & R). rewrite close_files in H by exact Ok. rewrite (open_path st num s Ok S), G in H.
    apply (dget_In Z.eqb z_eqb_spec) in G. apply In_nth_error in G. destruct G as (pos & G).
    rewrite E in H |- *. assert (c = (hdr_text (class_of x) ++ body ctl (x :: r)) ++ [13; 93]) as -> by congruence.
    assert (M : existsb (String.eqb (json_path s)) (map snd (firstn k (jp_open st))) = (pos <? k)%nat).
    { destruct (Nat.ltb_spec pos k) as [L|L].
      - apply existsb_exists. exists (json_path s). split; [|apply String.eqb_refl]. apply in_map_iff. exists (num, json_path s). split; [reflexivity|].
        assert (N1 : nth_error (firstn k (jp_open st)) pos = Some (num, json_path s)).
        { rewrite <- G. rewrite <- (firstn_skipn k (jp_open st)) at 2. symmetry. apply nth_error_app1. rewrite firstn_length.
          apply Nat.min_glb_lt; [exact L|]. apply nth_error_Some. congruence. }
        exact (nth_error_In _ _ N1).
      - apply Bool.not_true_is_false. intros X. apply existsb_exists in X. destruct X as (p & I & Q). apply String.eqb_eq in Q. subst p.
        apply In_nth_error in I. destruct I as (q & I).
        assert (LQ : (q < k)%nat).
        { assert (q < length (map snd (firstn k (jp_open st))))%nat by (apply nth_error_Some; congruence). rewrite map_length, firstn_length in H0. lia. }
        assert (N2 : nth_error (map snd (jp_open st)) q = Some (json_path s)).
        { rewrite <- (firstn_skipn k (jp_open st)), map_app. rewrite nth_error_app1; [exact I|]. apply nth_error_Some. congruence. }
        assert (N3 : nth_error (map snd (jp_open st)) pos = Some (json_path s)) by (now rewrite (map_nth_error snd _ _ G)).
        assert (q = pos); [|lia]. apply (proj1 (NoDup_nth_error _) ND); [apply nth_error_Some; congruence|congruence]. }
    rewrite M. destruct (pos <? k)%nat eqn:Q; eexists; exists pos; (split; [reflexivity|]); (split; [exact G|]); rewrite ?Q; exact R.
Qed.
Print Assumptions C34_release_partial.

(** The missing case is reached: interrupted before the first file is closed, a file is not JSON. *)
Theorem C34_release_refuted : exists ctl ses st rs num s,
  Forall (fun e => object_ok ctl (fst e)) ses /\ print_session ctl json_init ses = (st, rs) /\ zget JSON_SPEC num = Some s /\
  printed num ses rs <> [] /\ broken (json_close_interrupted st 0) (json_path s).
Proof.
  exists (sample_controls true), (sample_session "none").
  destruct (print_session (sample_controls true) json_init (sample_session "none")) as [st rs] eqn:E. exists st, rs, 1005.
  eexists. split; [apply C33_nonvacuous|]. split; [reflexivity|]. split; [reflexivity|].
  assert (X : let '(st, rs) := print_session (sample_controls true) json_init (sample_session "none") in
              (0 < length (printed 1005 (sample_session "none") rs))%nat /\
              match sget (jp_files (json_close_interrupted st 0)) "BASE/RefPoint-1005.json" with Some c => read_json c = None | None => False end).
  { vm_compute. split; [lia|reflexivity]. }
  rewrite E in X. destruct X as (X & Y). split.
  - intros Z. rewrite Z in X. cbn in X. lia.
  - unfold broken. change (json_path _) with "BASE/RefPoint-1005.json".
    destruct (sget (jp_files (json_close_interrupted st 0)) "BASE/RefPoint-1005.json") as [c|]; [exists c; auto|destruct Y].
Qed.
Print Assumptions C34_release_refuted.
(** Three files are open; when the release is interrupted after the first one, that one is complete. *)
Example C34_release_nonvacuous :
  let st := fst (print_session (sample_controls true) json_init (sample_session "none")) in
  let names := map snd (jp_open st) in
  let found k := map (fun p => elements_of (sget (jp_files (json_close_interrupted st k)) p)) names in
  names = ["BASE/RefPoint-1005.json"; "BASE/TextStr-1029.json"; "MSM7/GPS-MSM7-1077.json"] /\
  found 0%nat = [None; None; None] /\ found 1%nat = [Some 3%nat; None; None] /\ found 2%nat = [Some 3%nat; Some 2%nat; None] /\
  found 3%nat = [Some 3%nat; Some 2%nat; Some 2%nat].
Proof. vm_compute. auto 8. Qed.
