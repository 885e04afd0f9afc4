(** * JsonFiles: the JSON printer writes the documents of JsonFileSpec. *)
From Coq Require Import Lia.
From Verif Require Import PyBase PyDict PyFloat PyVal PyJson JsonSpec JsonNumbers JsonProofs MsmModel EphModel DecoderModel JsonModel JsonFileSpec.
Local Open Scope string_scope.
Local Open Scope list_scope.
Local Open Scope Z_scope.

(** ** Arrays of arbitrary texts *)
Definition text_of (t : list Z) (j : jv) : Prop :=
  head_ok t /\ forall fuel rest, (length t <= fuel)%nat -> stop rest -> value fuel (t ++ rest) = Some (j, rest).
Lemma clean_text ind lvl v : clean v -> text_of (json_text ind lvl v) (jv_of v).
Proof. intros C. split; [now apply text_head|]. intros. now apply text_reads. Qed.

Lemma elements_gen sep items js : ws_only sep -> Forall2 text_of items js -> items <> [] ->
  forall fuel w rest, ws_only w -> (length (join (44%Z :: sep) items) < fuel)%nat ->
    elements fuel (join (44 :: sep) items ++ w ++ 93 :: rest) = Some (js, rest).
Proof.
  intros S F. induction F as [|t j items js (H & R) F IH]; intros NE fuel w rest W L; [congruence|]. clear NE.
  destruct fuel as [|fuel]; [lia|]. cbn [elements]. destruct items as [|t' items].
  - inversion F; subst. cbn [join] in *. rewrite R; [|lia|apply ws_stop; [exact W|cbn; lia]].
    rewrite skip_ws_app by (exact W || reflexivity). rewrite eat_no by lia. rewrite eat_yes. reflexivity.
  - change (join (44 :: sep) (t :: t' :: items)) with (t ++ (44 :: sep) ++ join (44 :: sep) (t' :: items)) in *.
    rewrite !app_length in L. cbn [length] in L. rewrite <- app_assoc. cbn [app]. rewrite <- app_assoc.
    rewrite R; [|lia|cbn; lia].
    set (tail := sep ++ join (44 :: sep) (t' :: items) ++ w ++ 93 :: rest).
    replace (skip_ws (44 :: tail)) with (44 :: tail) by reflexivity. rewrite eat_yes.
    assert (SK : skip_ws tail = join (44 :: sep) (t' :: items) ++ w ++ 93 :: rest).
    { unfold tail. inversion F as [|? ? ? ? (H' & _)]; subst. destruct t' as [|c t']; [destruct H'|].
      destruct items; cbn [join app]; (apply skip_ws_app; [exact S|apply H']). }
    rewrite SK. rewrite IH; [reflexivity|discriminate|exact W|].
    destruct t; [destruct H|cbn [length] in L; lia].
Qed.

(** The text of a file: "[\r" header (",\r" object)* "\r]". *)
Lemma document_reads t0 j0 ts js : text_of t0 j0 -> Forall2 text_of ts js ->
  read_json (([91; 13] ++ t0) ++ concat (map (fun t => [44; 13] ++ t) ts) ++ [13; 93]) = Some (JArr (j0 :: js)).
Proof.
  intros T0 TS.
  assert (E : ([91; 13] ++ t0) ++ concat (map (fun t => [44; 13] ++ t) ts) ++ [13; 93] =
              91 :: [13] ++ join [44; 13] (t0 :: ts) ++ [13] ++ 93 :: []).
  { cbn [app]. do 2 f_equal. clear T0 TS j0 js. revert t0. induction ts as [|t ts IH]; intros t0; [reflexivity|].
    change (join [44; 13] (t0 :: t :: ts)) with (t0 ++ [44; 13] ++ join [44; 13] (t :: ts)).
    cbn [map concat]. rewrite <- !app_assoc. f_equal. cbn [app]. do 2 f_equal. apply IH. }
  rewrite E. unfold read_json.
  set (J := join [44; 13] (t0 :: ts)).
  assert (H : head_ok J).
  { destruct T0 as (H & _). unfold J. destruct t0 as [|c t0]; [destruct H|]. destruct ts; exact H. }
  change (skip_ws (91 :: [13] ++ J ++ [13] ++ [93])) with (91 :: [13] ++ J ++ [13] ++ [93]).
  remember (length (91 :: [13] ++ J ++ [13] ++ [93])) as n eqn:N. cbn [length app] in N. rewrite app_length in N. cbn [length] in N.
  cbn [value]. change (91 =? 123) with false. change (91 =? 91) with true. cbv iota.
  assert (SK : skip_ws ([13] ++ J ++ [13] ++ [93]) = J ++ [13] ++ [93]).
  { destruct J as [|c J']; [destruct H|]. cbn [app]. change (13 :: c :: J' ++ [13; 93]) with ([13] ++ c :: J' ++ [13; 93]).
    apply skip_ws_app; [constructor; [reflexivity|constructor]|apply H]. }
  rewrite SK. rewrite eat_no by (destruct J; [destruct H|apply H]).
  unfold J. rewrite (elements_gen [13] (t0 :: ts) (j0 :: js)).
  - reflexivity.
  - constructor; [reflexivity|constructor].
  - constructor; assumption.
  - discriminate.
  - constructor; [reflexivity|constructor].
  - fold J. lia.
Qed.

(** ** Paths *)
Lemma spec_paths_distinct : forall n s n' s', zget JSON_SPEC n = Some s -> zget JSON_SPEC n' = Some s' ->
  json_path s = json_path s' -> n = n'.
Proof.
  assert (F : forallb (fun a => forallb (fun b => (fst a =? fst b) || negb (String.eqb (json_path (snd a)) (json_path (snd b)))) JSON_SPEC) JSON_SPEC = true)
    by (vm_compute; reflexivity).
  intros n s n' s' H H' E. rewrite forallb_forall in F.
  pose proof (F _ (dget_In Z.eqb z_eqb_spec _ _ _ H)) as G. rewrite forallb_forall in G. specialize (G _ (dget_In Z.eqb z_eqb_spec _ _ _ H')).
  cbn [fst snd] in G. rewrite E, String.eqb_refl in G. apply orb_prop in G. destruct G as [G|G]; [now apply Z.eqb_eq|discriminate].
Qed.

Lemma sget_same {V} (d : list (string * V)) k v : sget (sset d k v) k = Some v.
Proof. apply dget_dset_same, string_eqb_spec. Qed.
Lemma sget_other {V} (d : list (string * V)) k k' v : k <> k' -> sget (sset d k v) k' = sget d k'.
Proof. apply dget_dset_other, string_eqb_spec. Qed.
Lemma zget_same {V} (d : list (Z * V)) k v : zget (zset d k v) k = Some v.
Proof. apply dget_dset_same, z_eqb_spec. Qed.
Lemma zget_other {V} (d : list (Z * V)) k k' v : k <> k' -> zget (zset d k v) k' = zget d k'.
Proof. apply dget_dset_other, z_eqb_spec. Qed.

(** ** The state of one file *)
Definition hdr_text (cls : string) : list Z := [91; 13] ++ json_text None 0 (named [("source_type", vstr cls)]).
Definition obj_text (ctl : json_controls) (x : rtcm_obj) : list Z :=
  match shown ctl x with Ok v => json_text (indent_of ctl) 0 v | Err _ => [] end.
Definition body (ctl : json_controls) (objs : list rtcm_obj) : list Z :=
  concat (map (fun t => [44; 13] ++ t) (map (obj_text ctl) objs)).

(** Not opened in this session, or opened, with a header line and some objects. *)
Definition fstate (ctl : json_controls) (before st : json_printer) (num : Z) (path : string)
    (q : option (string * list rtcm_obj)) : Prop :=
  match q with
  | None => zget (jp_open st) num = None /\ sget (jp_files st) path = sget (jp_files before) path
  | Some (cls, objs) => zget (jp_open st) num = Some path /\
      sget (jp_files st) path = Some (hdr_text cls ++ body ctl objs)
  end.

Definition open_ok (st : json_printer) : Prop :=
  NoDup (map fst (jp_open st)) /\
  forall n p, In (n, p) (jp_open st) -> exists s, zget JSON_SPEC n = Some s /\ p = json_path s.

Lemma open_ok_paths st : open_ok st -> NoDup (map snd (jp_open st)).
Proof.
  intros (N & P). induction (jp_open st) as [|[n p] l IH]; [constructor|].
  cbn [map fst snd] in *. inversion N as [|? ? NI N']; subst. constructor.
  - intros I. apply in_map_iff in I. destruct I as ((n' & p') & E & I). cbn in E. subst p'.
    destruct (P n p (or_introl eq_refl)) as (s & H & E). destruct (P n' p (or_intror I)) as (s' & H' & E').
    apply NI. apply in_map_iff. exists (n', p). split; [|exact I]. cbn.
    apply (spec_paths_distinct n' s' n s H' H). congruence.
  - apply IH; [exact N'|]. intros n' p' I. apply P. now right.
Qed.

Definition put_end (fs : list (string * list Z)) (np : Z * string) : list (string * list Z) :=
  let (_, path) := np in sset fs path (match sget fs path with Some c => c | None => [] end ++ [13; 93]).
Lemma close_fold l : NoDup (map snd l) -> forall fs path,
  sget (fold_left put_end l fs) path =
  if existsb (String.eqb path) (map snd l)
  then Some (match sget fs path with Some c => c | None => [] end ++ [13; 93]) else sget fs path.
Proof.
  induction l as [|[n p] l IH]; intros N fs path; [reflexivity|].
  cbn [map snd] in N. inversion N as [|? ? NI N']; subst. cbn [fold_left put_end map snd existsb].
  rewrite IH by exact N'. destruct (String.eqb_spec path p) as [->|D]; cbn [orb].
  - rewrite sget_same. destruct (existsb (String.eqb p) (map snd l)) eqn:X; [|reflexivity].
    apply existsb_exists in X. destruct X as (p' & I & E). apply String.eqb_eq in E. subst p'. contradiction.
  - now rewrite sget_other by congruence.
Qed.
Lemma close_files st path : open_ok st ->
  sget (jp_files (json_close st)) path =
  if existsb (String.eqb path) (map snd (jp_open st))
  then Some (match sget (jp_files st) path with Some c => c | None => [] end ++ [13; 93])
  else sget (jp_files st) path.
Proof.
  intros O. unfold json_close. cbn [jp_files]. rewrite <- close_fold by now apply open_ok_paths. f_equal.
Qed.

Lemma open_path st num s : open_ok st -> zget JSON_SPEC num = Some s ->
  existsb (String.eqb (json_path s)) (map snd (jp_open st)) =
  match zget (jp_open st) num with Some _ => true | None => false end.
Proof.
  intros (N & P) S. destruct (zget (jp_open st) num) as [p|] eqn:G.
  - apply (dget_In Z.eqb z_eqb_spec) in G. destruct (P _ _ G) as (s' & S' & ->). assert (s' = s) as -> by congruence.
    apply existsb_exists. exists (json_path s). split; [|apply String.eqb_refl].
    apply in_map_iff. now exists (num, json_path s).
  - destruct (existsb _ _) eqn:X; [|reflexivity]. apply existsb_exists in X. destruct X as (p & I & E).
    apply String.eqb_eq in E. subst p. apply in_map_iff in I. destruct I as ((n & p) & E & I). cbn in E. subst p.
    destruct (P _ _ I) as (s' & S' & E). pose proof (spec_paths_distinct _ _ _ _ S S' E) as <-.
    apply (dget_None Z.eqb z_eqb_spec) in G. destruct G. apply in_map_iff. now exists (num, json_path s).
Qed.

(** Closing completes the document. *)
Lemma class_text cls : text_of (json_text None 0 (named [("source_type", vstr cls)]))
  (JObj [(ustr "source_type", JStr (ustr cls))]).
Proof.
  change (JObj [(ustr "source_type", JStr (ustr cls))]) with (jv_of (named [("source_type", vstr cls)])).
  apply clean_text. assert (U : forall s, text_ok (ustr s)).
  { induction s as [|a s IH]; constructor; [lia|exact IH]. }
  cbn. repeat split; try (apply U).
  repeat (constructor; [lia|]). constructor.
Qed.
Lemma obj_text_of ctl x : object_ok ctl x -> text_of (obj_text ctl x) (json_of ctl x).
Proof.
  intros ((v & E & C) & _). unfold obj_text, json_of. rewrite E. now apply clean_text.
Qed.

Lemma close_state ctl before st num s q : open_ok st -> zget JSON_SPEC num = Some s ->
  fstate ctl before st num (json_path s) q ->
  match q with
  | None => sget (jp_files (json_close st)) (json_path s) = sget (jp_files before) (json_path s)
  | Some (cls, objs) => Forall (object_ok ctl) objs -> exists content,
      sget (jp_files (json_close st)) (json_path s) = Some content /\
      read_json content = Some (JArr (JObj [(ustr "source_type", JStr (ustr cls))] :: map (json_of ctl) objs))
  end.
Proof.
  intros O S F. rewrite close_files, (open_path st num s) by assumption. destruct q as [[cls objs]|]; cbn [fstate] in F.
  - destruct F as (-> & ->). intros OK. eexists. split; [reflexivity|]. unfold hdr_text, body. rewrite <- app_assoc.
    apply document_reads; [apply class_text|]. clear - OK. induction OK; cbn [map]; constructor; [now apply obj_text_of|assumption].
  - destruct F as (-> & ->). reflexivity.
Qed.

(** ** Operations *)
Lemma do_open_ok can st num s : open_ok st -> zget JSON_SPEC num = Some s -> open_ok (fst (do_op can st (OpOpen num (json_path s)))).
Proof.
  intros (N & P) S. cbn [do_op]. destruct (can (json_path s)); cbn [fst]; [|now split]. split; cbn [jp_open].
  - unfold zset. destruct (in_dec Z.eq_dec num (map fst (jp_open st))) as [I|I].
    + assert (E : map fst (dset Z.eqb (jp_open st) num (json_path s)) = map fst (jp_open st)); [|now rewrite E].
      clear - I. induction (jp_open st) as [|[k v] l IH]; [destruct I|]. cbn. destruct (Z.eqb_spec num k) as [->|D]; [reflexivity|].
      cbn. f_equal. apply IH. destruct I as [E|I]; [cbn in E; congruence|exact I].
    + rewrite (dset_new Z.eqb z_eqb_spec) by exact I. rewrite map_app. cbn [map fst]. clear - N I.
      induction (map fst (jp_open st)) as [|k l IH]; cbn; [constructor; [intros []|constructor]|].
      inversion N; subst. constructor.
      * intros J. apply in_app_or in J. destruct J as [J|[J|[]]]; [contradiction|]. subst. apply I. now left.
      * apply IH; [assumption|]. intros J. apply I. now right.
  - intros n p I. assert (I' : In (n, p) (jp_open st) \/ (n, p) = (num, json_path s)).
    { clear - I. unfold zset in I. induction (jp_open st) as [|[k v] l IH]; cbn in I.
      - destruct I as [I|[]]. right. congruence.
      - destruct (Z.eqb_spec num k) as [->|D]; destruct I as [I|I].
        + right. congruence.
        + left. now right.
        + left. now left.
        + destruct (IH I) as [J|J]; [left; now right|now right]. }
    destruct I' as [I'|I']; [now apply P|]. injection I' as -> ->. now exists s.
Qed.
Lemma do_write_ok can st num t : open_ok st -> open_ok (fst (do_op can st (OpWrite num t))).
Proof. intros O. cbn [do_op]. destruct (zget (jp_open st) num); exact O. Qed.

Section Step.
Context (ctl : json_controls) (before : json_printer) (can : string -> bool).

Lemma open_same st num s : zget JSON_SPEC num = Some s -> can (json_path s) = true -> fstate ctl before st num (json_path s) None ->
  let st' := fst (do_op can st (OpOpen num (json_path s))) in
  zget (jp_open st') num = Some (json_path s) /\ sget (jp_files st') (json_path s) = Some [].
Proof. intros S C F. cbn [do_op]. rewrite C. cbn [fst jp_open jp_files]. now rewrite zget_same, sget_same. Qed.
Lemma open_other st num s num' s' q : zget JSON_SPEC num = Some s -> zget JSON_SPEC num' = Some s' -> num' <> num ->
  fstate ctl before st num' (json_path s') q ->
  fstate ctl before (fst (do_op can st (OpOpen num (json_path s)))) num' (json_path s') q.
Proof.
  intros S S' D F. cbn [do_op]. destruct (can (json_path s)); [|exact F]. cbn [fst]. unfold fstate in *. cbn [jp_open jp_files].
  rewrite zget_other by congruence. rewrite sget_other; [exact F|]. intros E. apply D. symmetry. now apply (spec_paths_distinct num s num' s').
Qed.
Lemma write_same st num path t c : zget (jp_open st) num = Some path -> sget (jp_files st) path = Some c ->
  do_op can st (OpWrite num t) = ({| jp_open := jp_open st; jp_files := sset (jp_files st) path (c ++ t) |}, Ok tt).
Proof. intros O C. cbn [do_op]. now rewrite O, C. Qed.
Lemma write_other st num t num' s' q : open_ok st -> zget JSON_SPEC num' = Some s' -> num' <> num ->
  fstate ctl before st num' (json_path s') q ->
  fstate ctl before (fst (do_op can st (OpWrite num t))) num' (json_path s') q.
Proof.
  intros (N & P) S' D F. cbn [do_op]. destruct (zget (jp_open st) num) as [path|] eqn:G; [|exact F].
  apply (dget_In Z.eqb z_eqb_spec) in G. destruct (P _ _ G) as (s & S & ->).
  cbn [fst]. unfold fstate in *. cbn [jp_open jp_files].
  rewrite sget_other; [exact F|]. intros E. apply D. symmetry. now apply (spec_paths_distinct num s num' s').
Qed.
End Step.

(** ** Printing *)
Lemma clean_json_ok v : clean v -> json_ok v = true.
Proof.
  revert v. apply (pyval_ind' (fun v => clean v -> json_ok v = true)); try reflexivity.
  - intros l IH C. cbn [clean json_ok] in *. induction IH as [|x r H IH' IHl]; [reflexivity|].
    destruct C as (Cx & Cr). cbn [forallb]. now rewrite H, IHl.
  - intros l IH C. cbn [clean json_ok] in *. induction IH as [|x r H IH' IHl]; [reflexivity|].
    destruct C as (Cx & Cr). cbn [forallb]. now rewrite H, IHl.
  - intros d IH C. cbn [clean json_ok] in *. induction IH as [|[k x] r H IH' IHl]; [reflexivity|].
    destruct C as ((Ck & Cx) & Cr). cbn [forallb snd] in *. destruct (key_ok_text k Ck) as (-> & _). now rewrite H, IHl.
Qed.

Lemma print_ops_ok ctl st x : object_ok ctl x -> exists num s, number_of x = Some num /\ zget JSON_SPEC num = Some s /\
  print_ops ctl st x = Ok (append_ops st (class_of x) num (json_path s) ([44; 13] ++ obj_text ctl x)).
Proof.
  intros ((v & E & C) & (num & s & N & S) & D). exists num, s. split; [exact N|]. split; [exact S|].
  unfold print_ops, obj_text. rewrite E.
  assert (J : json_dumps (indent_of ctl) v = Ok (json_text (indent_of ctl) 0 v)).
  { unfold json_dumps. now rewrite clean_json_ok. }
  destruct x as [[b|o]|p]; cbn [shown data_string number_of] in *.
  - injection E as <-. rewrite J. cbn [as_assert bind]. injection N as ->. now rewrite S.
  - injection E as <-. rewrite J. cbn [as_assert bind]. injection N as ->. now rewrite S.
  - rewrite D, E. cbn [bind]. rewrite J. cbn [as_assert bind]. unfold eph_getattr.
    destruct (sget (po_attrs p) "msgNum") as [w|]; [|discriminate N]. destruct w; try discriminate N. injection N as ->.
    cbn [bind]. now rewrite S.
Qed.

(** What the first [k] file operations of a print do to the state of the object's own file;
    None: the file has just been created and is empty. *)
Definition progress (q : option (string * list rtcm_obj)) (x : rtcm_obj) (k : nat)
  : option (option (string * list rtcm_obj)) :=
  match q, k with
  | _, O => Some q
  | None, 1%nat => None
  | None, 2%nat => Some (Some (class_of x, []))
  | None, _ => Some (Some (class_of x, [x]))
  | Some (cls, objs), _ => Some (Some (cls, objs ++ [x]))
  end.

Lemma body_snoc ctl objs x : body ctl (objs ++ [x]) = body ctl objs ++ [44; 13] ++ obj_text ctl x.
Proof. unfold body. rewrite !map_app, concat_app. cbn [map concat]. now rewrite app_nil_r. Qed.

Lemma prefix_state ctl before can st x num s q k : open_ok st -> zget JSON_SPEC num = Some s ->
  fstate ctl before st num (json_path s) q -> (q = None -> can (json_path s) = true) ->
  exists st', do_ops can st (firstn k (append_ops st (class_of x) num (json_path s) ([44; 13] ++ obj_text ctl x))) = (st', Ok tt) /\
    open_ok st' /\
    match progress q x k with
    | Some q' => fstate ctl before st' num (json_path s) q'
    | None => zget (jp_open st') num = Some (json_path s) /\ sget (jp_files st') (json_path s) = Some []
    end /\
    forall num' s' q', num' <> num -> zget JSON_SPEC num' = Some s' -> fstate ctl before st num' (json_path s') q' ->
      fstate ctl before st' num' (json_path s') q'.
Proof.
  intros O S F C. unfold append_ops. destruct q as [[cls objs]|].
  - pose proof F as (G & T). rewrite G. destruct k as [|k]; [exists st; cbn; auto|].
    assert (K : firstn (Datatypes.S k) [OpWrite num ([44; 13] ++ obj_text ctl x)] = [OpWrite num ([44; 13] ++ obj_text ctl x)])
      by (cbn; now rewrite firstn_nil).
    rewrite K. cbn [do_ops].
    pose proof (do_write_ok can st num ([44; 13] ++ obj_text ctl x) O) as O'.
    pose proof (fun num' s' q' => write_other ctl before can st num ([44; 13] ++ obj_text ctl x) num' s' q' O) as OT.
    rewrite (write_same can st num _ _ _ G T) in *. cbn [fst] in *. eexists. split; [reflexivity|].
    split; [exact O'|]. split.
    + cbn [progress fstate jp_open jp_files]. split; [exact G|]. rewrite sget_same, body_snoc, <- app_assoc. reflexivity.
    + intros num' s' q' D S' F'. now apply OT.
  - specialize (C eq_refl). pose proof F as (G & T). rewrite G. destruct k as [|k]; [exists st; cbn; auto|].
    set (h := OpWrite num ([91; 13] ++ json_text None 0 (named [("source_type", vstr (class_of x))]))).
    set (d := OpWrite num ([44; 13] ++ obj_text ctl x)).
    destruct (open_same ctl before can st num s S C F) as (G1 & T1).
    pose proof (do_open_ok can st num s O S) as O1.
    pose proof (fun num' s' q' => open_other ctl before can st num s num' s' q' S) as X1.
    assert (R1 : do_op can st (OpOpen num (json_path s)) = (fst (do_op can st (OpOpen num (json_path s))), Ok tt)).
    { cbn [do_op]. now rewrite C. }
    set (st1 := fst (do_op can st (OpOpen num (json_path s)))) in *. clearbody st1.
    destruct k as [|k].
    { exists st1. cbn [firstn do_ops]. rewrite R1. split; [reflexivity|]. split; [exact O1|]. split; [cbn; auto|].
      intros num' s' q' D S' F'. now apply X1. }
    pose proof (do_write_ok can st1 num ([91; 13] ++ json_text None 0 (named [("source_type", vstr (class_of x))])) O1) as O2.
    pose proof (fun num' s' q' => write_other ctl before can st1 num ([91; 13] ++ json_text None 0 (named [("source_type", vstr (class_of x))])) num' s' q' O1) as X2.
    pose proof (write_same can st1 num _ ([91; 13] ++ json_text None 0 (named [("source_type", vstr (class_of x))])) _ G1 T1) as R2.
    change ([] ++ [91; 13] ++ json_text None 0 (named [("source_type", vstr (class_of x))])) with (hdr_text (class_of x)) in R2.
    fold h in R2, O2, X2. rewrite R2 in O2, X2. cbn [fst] in O2, X2.
    set (st2 := {| jp_open := jp_open st1; jp_files := sset (jp_files st1) (json_path s) (hdr_text (class_of x)) |}) in *.
    assert (G2 : zget (jp_open st2) num = Some (json_path s)) by exact G1.
    assert (T2 : sget (jp_files st2) (json_path s) = Some (hdr_text (class_of x))) by (cbn; apply sget_same).
    clearbody st2. destruct k as [|k].
    { exists st2. cbn [firstn do_ops]. rewrite R1, R2. split; [reflexivity|]. split; [exact O2|]. split.
      - cbn [progress fstate]. split; [exact G2|]. rewrite T2. unfold body. cbn. now rewrite app_nil_r.
      - intros num' s' q' D S' F'. apply X2; auto. }
    pose proof (do_write_ok can st2 num ([44; 13] ++ obj_text ctl x) O2) as O3.
    pose proof (fun num' s' q' => write_other ctl before can st2 num ([44; 13] ++ obj_text ctl x) num' s' q' O2) as X3.
    pose proof (write_same can st2 num _ ([44; 13] ++ obj_text ctl x) _ G2 T2) as R3.
    fold d in R3, O3, X3. rewrite R3 in O3, X3. cbn [fst] in O3, X3.
    assert (K : firstn (Datatypes.S (Datatypes.S (Datatypes.S k))) [OpOpen num (json_path s); h; d] = [OpOpen num (json_path s); h; d])
      by (cbn; now rewrite firstn_nil).
    rewrite K. cbn [do_ops]. rewrite R1, R2, R3. eexists. split; [reflexivity|]. split; [exact O3|]. split.
    + cbn [progress fstate jp_open jp_files]. split; [exact G2|]. rewrite sget_same. unfold body. cbn [map concat].
      now rewrite app_nil_r.
    + intros num' s' q' D S' F'. apply X3; auto.
Qed.

Lemma refused_state can st x num s t k : zget (jp_open st) num = None -> can (json_path s) = false ->
  do_ops can st (firstn (S k) (append_ops st (class_of x) num (json_path s) t)) = (st, Err EAssert).
Proof. intros G C. unfold append_ops. rewrite G. cbn [firstn do_ops do_op]. now rewrite C. Qed.

(** ** Sessions *)
Definition recorded (objs : list rtcm_obj) : option (string * list rtcm_obj) :=
  match objs with [] => None | x :: _ => Some (class_of x, objs) end.
Definition all_files (ctl : json_controls) (before st : json_printer) (objs : Z -> list rtcm_obj) : Prop :=
  open_ok st /\ forall num s, zget JSON_SPEC num = Some s -> fstate ctl before st num (json_path s) (recorded (objs num)).

Lemma recorded_progress objs x k : (3 <= k)%nat -> progress (recorded objs) x k = Some (recorded (objs ++ [x])).
Proof. intros K. destruct k as [|[|[|k]]]; try lia. now destruct objs. Qed.

Lemma print_step ctl before can st x objs : object_ok ctl x -> all_files ctl before st objs ->
  let '(st', r) := json_print ctl can st x in
  all_files ctl before st' (fun num => objs num ++ match r, number_of x with Ok _, Some n => if n =? num then [x] else [] | _, _ => [] end).
Proof.
  intros OK (O & F). destruct (print_ops_ok ctl st x OK) as (num & s & N & S & P). unfold json_print. rewrite P.
  pose proof (F num s S) as Fn.
  destruct (zget (jp_open st) num) as [p|] eqn:G; [|destruct (can (json_path s)) eqn:C].
  3:{ pose proof (refused_state can st x num s ([44; 13] ++ obj_text ctl x) 2 G C) as R.
      rewrite firstn_all2 in R by (unfold append_ops; rewrite G; cbn; lia). rewrite R.
      split; [exact O|]. intros num' s' S'. rewrite app_nil_r. now apply F. }
  1,2: assert (Q : recorded (objs num) = None -> can (json_path s) = true) by (intros Q; rewrite Q in Fn; destruct Fn; congruence).
  1,2: destruct (prefix_state ctl before can st x num s _ 3 O S Fn Q) as (st' & R & O' & F' & X).
  1,2: rewrite firstn_all2 in R by (unfold append_ops; rewrite G; cbn; lia); rewrite R; rewrite N.
  1,2: (split; [exact O'|]; intros num' s' S'; destruct (Z.eqb_spec num num') as [<-|D];
    [rewrite recorded_progress in F' by lia; assert (s' = s) as -> by congruence; exact F'
    |rewrite app_nil_r; apply X; [congruence|exact S'|now apply F]]).
Qed.

Lemma session_state ctl before h : Forall (fun e => object_ok ctl (fst e)) h -> forall st objs, all_files ctl before st objs ->
  let '(st', rs) := print_session ctl st h in all_files ctl before st' (fun num => objs num ++ printed num h rs).
Proof.
  induction h as [|[x can] h IH]; intros OK st objs A.
  - cbn. destruct A as (O & F). split; [exact O|]. intros. rewrite app_nil_r. now apply F.
  - inversion OK as [|? ? Ox Oh]; subst. cbn [fst] in Ox. cbn [print_session].
    pose proof (print_step ctl before can st x objs Ox A) as PS. destruct (json_print ctl can st x) as [st1 r].
    specialize (IH Oh st1 _ PS). destruct (print_session ctl st1 h) as [st2 rs]. cbn [printed].
    destruct IH as (O & F). split; [exact O|]. intros num s S. specialize (F num s S). now rewrite app_assoc.
Qed.

Lemma printed_ok ctl num h : Forall (fun e => object_ok ctl (fst e)) h -> forall rs, Forall (object_ok ctl) (printed num h rs).
Proof.
  induction h as [|[x can] h IH]; intros OK rs; [destruct rs; constructor|]. inversion OK as [|? ? Ox Oh]; subst.
  destruct rs as [|r rs]; cbn [printed]; [constructor|]. apply Forall_app. split; [|now apply IH].
  destruct r; [|constructor]. destruct (number_of x) as [n|]; [|constructor]. destruct (n =? num); constructor; [exact Ox|constructor].
Qed.

Lemma nothing_open ctl st : jp_open st = [] -> all_files ctl st st (fun _ => []).
Proof.
  intros O. split; [split; rewrite O; [constructor|intros ? ? []]|].
  intros num s S. cbn. rewrite O. split; reflexivity.
Qed.
