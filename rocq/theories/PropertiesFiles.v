(** * Conversion of several files: C42, C47. *)
From Coq Require Import Permutation Ascii.
From Verif Require Import PyBase PyDict PyFloat PyVal TestData DecoderModel MargoModel JsonModel PrinterModel PrinterSpec PropertiesPrinter
  PropertiesMargo PropertiesJson NamesSpec NamesProofs MainModel MainSpec MainProofs PropertiesMain BitsModel FramerSpec MsmModel MsmSpec MargoSpec MargoFiles JsonFileSpec MargoFiles.
Local Open Scope string_scope.
Local Open Scope list_scope.
Local Open Scope Z_scope.

Lemma path_eqb_spec a b : path_eqb a b = true <-> a = b.
Proof. unfold path_eqb. destruct (list_eq_dec string_dec a b); split; congruence. Qed.

Lemma inside_spec d p : inside d p = true <-> exists r, r <> [] /\ p = d ++ r.
Proof.
  unfold inside. rewrite andb_true_iff, path_eqb_spec, Nat.ltb_lt. split.
  - intros (E & L). exists (skipn (length d) p). split.
    + intros N. apply (f_equal (@length _)) in N. rewrite skipn_length in N. cbn in N. lia.
    + rewrite <- E at 1. symmetry. apply firstn_skipn.
  - intros (r & N & ->). rewrite firstn_app, Nat.sub_diag, firstn_all, app_nil_r. split; [reflexivity|].
    rewrite app_length. destruct r; [congruence|]. cbn. lia.
Qed.
Lemma inside_irrefl d : inside d d = false.
Proof. unfold inside. rewrite Nat.ltb_irrefl. apply andb_false_r. Qed.
(** A path is inside at most one of two separate folders. *)
Lemma inside_two a b p : inside a p = true -> inside b p = true -> a = b \/ inside a b = true \/ inside b a = true.
Proof.
  rewrite !inside_spec. intros (r & _ & ->) (r' & _ & E). revert b r r' E.
  induction a as [|x a IH]; intros b r r' E.
  - destruct b as [|y b]; [auto|]. right. left. exists (y :: b). split; [discriminate|reflexivity].
  - destruct b as [|y b]; [right; right; exists (x :: a); split; [discriminate|reflexivity]|].
    cbn [app] in E. injection E as <- E. destruct (IH b r r' E) as [->|[(q & N & ->)|(q & N & ->)]].
    + auto.
    + right. left. exists q. auto.
    + right. right. exists q. auto.
Qed.

Section Convert.
Variable ord : list (subprinter world) -> list (subprinter world).
Variable mode : string.
Variable ctl : boxed_controls.
Variable env : path -> os.
Notation conv := (convert_file ord mode ctl env).
Notation fld src := (work_folder src mode).

(** Only the work folder is touched. *)
Lemma convert_outside f src p : inside (fld src) p = false -> fst (conv f src) p = f p.
Proof.
  intros N. unfold convert_file. destruct (f (fld src)); [reflexivity|].
  destruct (factory mode true (env src) ctl) as [[c|]|]; [|cbn; unfold rmtree; now rewrite N|cbn; unfold rmtree; now rewrite N].
  destruct (decode_rtcm_file _ _ _ _) as [s r]. cbn [fst]. unfold put, rmtree. now rewrite N.
Qed.
(** The products depend on the source only. *)
Lemma convert_local f g src p : f (fld src) = g (fld src) -> f src = g src -> inside (fld src) src = false ->
  inside (fld src) p = true -> (f (fld src) <> None -> f p = g p) -> fst (conv f src) p = fst (conv g src) p.
Proof.
  intros E S N I P. unfold convert_file. rewrite <- E. destruct (f (fld src)); [cbn; apply P; discriminate|].
  destruct (factory mode true (env src) ctl) as [[c|]|]; [|cbn; unfold rmtree; now rewrite I|cbn; unfold rmtree; now rewrite I].
  unfold rmtree at 1 3. rewrite N, S. destruct (decode_rtcm_file _ _ _ _) as [s r]. cbn [fst]. unfold put, rmtree. rewrite I.
  destruct (skipn _ p) as [|a [|b [|? ?]]]; try reflexivity.
Qed.

Lemma convert_all_snoc f l src : convert_all ord mode ctl env f (l ++ [src]) = fst (conv (convert_all ord mode ctl env f l) src).
Proof. unfold convert_all. now rewrite fold_left_app. Qed.

Lemma independent_app l src : independent mode (l ++ [src]) -> independent mode l.
Proof. intros H x y X Y. apply H; apply in_or_app; now left. Qed.

Lemma convert_all_state f : forall files, independent mode files ->
  forall p, (forall src, In src files -> inside (fld src) p = true -> convert_all ord mode ctl env f files p = fst (conv f src) p) /\
            ((forall src, In src files -> inside (fld src) p = false) -> convert_all ord mode ctl env f files p = f p).
Proof.
  induction files as [|src files IH] using rev_ind; intros IND p; [split; [intros x []|reflexivity]|].
  specialize (IH (independent_app _ _ IND)). rewrite convert_all_snoc. set (g := convert_all ord mode ctl env f files) in *.
  assert (Isrc : In src (files ++ [src])) by (apply in_or_app; right; now left).
  assert (NI : forall x, In x (files ++ [src]) -> inside (fld x) src = false) by (intros x X; now apply (IND x src)).
  assert (Gsrc : g src = f src) by (apply IH; intros x X; apply NI, in_or_app; now left).
  assert (Gfld : g (fld src) = f (fld src)).
  { apply IH. intros x X. destruct (IND x src) as ([->|(_ & N & _)] & _); auto; [apply in_or_app; now left|apply inside_irrefl]. }
  split.
  - intros x X I. apply in_app_or in X.
    assert (C : x = src \/ (In x files /\ x <> src)) by (destruct X as [X|[->|[]]]; [destruct (list_eq_dec string_dec x src); auto|auto]).
    destruct C as [->|(Xf & NE)].
    + destruct (in_dec (list_eq_dec string_dec) src files) as [Is|Ns].
      * pose proof (proj1 (IH p) src Is I) as E. apply convert_local; auto.
        intros H. rewrite E. rewrite Gfld in H. unfold convert_file. destruct (f (fld src)); [reflexivity|congruence].
      * apply convert_local; auto. intros _. apply IH. intros y Y.
        destruct (inside (fld y) p) eqn:IY; [|reflexivity].
        destruct (IND y src) as ([->|(A & B & C)] & _); auto; [apply in_or_app; now left|contradiction|].
        destruct (inside_two _ _ _ IY I) as [Q|[Q|Q]]; congruence.
    + assert (N : inside (fld src) p = false).
      { destruct (inside (fld src) p) eqn:IS; [|reflexivity].
        destruct (IND x src) as ([->|(A & B & C)] & _); auto; [apply in_or_app; now left|contradiction|].
        destruct (inside_two _ _ _ I IS) as [Q|[Q|Q]]; congruence. }
      rewrite (convert_outside g src p N). now apply IH.
  - intros H. rewrite convert_outside by (now apply H). apply IH. intros x X. apply H, in_or_app. now left.
Qed.
End Convert.

(** Sources whose work folders are separate and contain no source: the products of each are
    those of its own conversion, and nothing outside the work folders is touched.  (The same
    source may be given several times.) *)
Theorem C42_independent_partial : forall ord mode ctl env f files, independent mode files ->
  (forall src p, In src files -> inside (work_folder src mode) p = true ->
     convert_all ord mode ctl env f files p = fst (convert_file ord mode ctl env f src) p) /\
  (forall p, (forall src, In src files -> inside (work_folder src mode) p = false) ->
     convert_all ord mode ctl env f files p = f p).
Proof.
  intros ord mode ctl env f files I. split; intros; [|now apply convert_all_state]. now apply (convert_all_state ord mode ctl env f files I p).
Qed.
Print Assumptions C42_independent_partial.

(** In particular: files of one directory with the same extension, as in directory mode. *)
Lemma append_inj_l (a b c : string) : (a ++ b = a ++ c -> b = c)%string.
Proof. induction a as [|x a IH]; cbn; intros H; [exact H|]. injection H as H. auto. Qed.
Lemma append_length (a b : string) : String.length (a ++ b) = (String.length a + String.length b)%nat.
Proof. induction a; cbn; congruence. Qed.
Lemma append_inj_r (a b c : string) : (a ++ c = b ++ c -> a = b)%string.
Proof.
  revert b. induction a as [|x a IH]; intros [|y b] H; cbn in H.
  - reflexivity.
  - apply (f_equal String.length) in H. cbn in H. rewrite append_length in H. lia.
  - apply (f_equal String.length) in H. cbn in H. rewrite append_length in H. lia.
  - injection H as <- H. f_equal. auto.
Qed.
Fixpoint no_dot (s : string) : bool := match s with EmptyString => true | String c r => negb (Ascii.eqb c dot) && no_dot r end.
Definition hidden (s : string) : bool := match s with String c _ => Ascii.eqb c dot | EmptyString => false end.
Lemma before_none s : no_dot s = true -> before_last_dot s = None.
Proof.
  induction s as [|c s IH]; cbn [no_dot before_last_dot]; [reflexivity|]. rewrite andb_true_iff. intros (A & B). rewrite (IH B).
  revert A. destruct (Ascii.eqb c dot); [discriminate|reflexivity].
Qed.
Lemma before_stem stem ext : no_dot ext = true -> before_last_dot (stem ++ String dot ext)%string = Some stem.
Proof.
  intros H. induction stem as [|c stem IH]; cbn [String.append before_last_dot].
  - rewrite (before_none _ H). now rewrite Ascii.eqb_refl.
  - now rewrite IH.
Qed.
Lemma root_stem stem ext : stem <> EmptyString -> hidden stem = false -> no_dot ext = true -> root_of (stem ++ String dot ext)%string = stem.
Proof.
  intros N H D. unfold root_of. rewrite (before_stem stem ext D). destruct stem as [|c stem]; [congruence|]. cbn [only_dots hidden] in *. now rewrite H.
Qed.

Theorem C42_same_directory_partial : forall ord mode ctl env f dir ext stems,
  no_dot ext = true -> Forall (fun s => s <> EmptyString /\ hidden s = false) stems ->
  let files := map (fun s => dir ++ [(s ++ String dot ext)%string]) stems in
  (forall src p, In src files -> inside (work_folder src mode) p = true ->
     convert_all ord mode ctl env f files p = fst (convert_file ord mode ctl env f src) p) /\
  (forall p, (forall src, In src files -> inside (work_folder src mode) p = false) ->
     convert_all ord mode ctl env f files p = f p).
Proof.
  intros ord mode ctl env f dir ext stems D F files. apply C42_independent_partial.
  rewrite Forall_forall in F.
  assert (W : forall s, In s stems -> work_folder (dir ++ [(s ++ String dot ext)%string]) mode = dir ++ [(s ++ "-" ++ mode)%string]).
  { intros s I. destruct (F s I) as (A & B). unfold work_folder. rewrite removelast_last, last_last, (root_stem _ _ A B D). reflexivity. }
  assert (L : forall a b : string, inside (dir ++ [a]) (dir ++ [b]) = false).
  { intros a b. unfold inside. rewrite !app_length. cbn [length]. rewrite Nat.ltb_irrefl. apply andb_false_r. }
  intros x y X Y. apply in_map_iff in X, Y. destruct X as (s & <- & S). destruct Y as (t & <- & T). rewrite (W s S), (W t T). split; [|apply L].
  destruct (string_dec s t) as [->|N]; [now left|right]. split; [|split; apply L].
  intros E. apply app_inv_head in E. apply (f_equal (hd "")) in E. cbn [hd] in E. apply append_inj_r in E. contradiction.
Qed.
Print Assumptions C42_same_directory_partial.

(** The claim without restrictions is false.  Two sources that differ in the extension only
    share a work folder: the second conversion deletes the products of the first. *)
Definition files_of (l : list (path * list Z)) : fs :=
  fun p => match find (fun e => path_eqb (fst e) p) l with Some e => Some (snd e) | None => None end.
Definition present (f : fs) (p : path) : bool := match f p with Some _ => true | None => false end.

Theorem C42_same_stem_refuted : exists ord mode ctl env f files src p,
  In src files /\ inside (work_folder src mode) p = true /\
  fst (convert_file ord mode ctl env f src) p <> None /\ convert_all ord mode ctl env f files p = None.
Proof.
  exists (fun l => l), "JSON", sample_box, (fun _ => sample_os),
    (files_of [(["d"; "a.rtcm3"], sample_1005); (["d"; "a.bin"], sample_1029)]), [["d"; "a.rtcm3"]; ["d"; "a.bin"]], ["d"; "a.rtcm3"],
    ["d"; "a-JSON"; "BASE"; "RefPoint-1005.json"].
  split; [now left|]. split; [reflexivity|]. split; vm_compute; [discriminate|reflexivity].
Qed.
Print Assumptions C42_same_stem_refuted.

(** A source inside the work folder of another one is deleted before it is read. *)
Theorem C42_nested_source_refuted : exists ord mode ctl env f files src p,
  In src files /\ f src <> None /\ inside (work_folder src mode) p = true /\
  fst (convert_file ord mode ctl env f src) p <> None /\
  convert_all ord mode ctl env f files p = None /\ convert_all ord mode ctl env f files src = None.
Proof.
  exists (fun l => l), "JSON", sample_box, (fun _ => sample_os),
    (files_of [(["d"; "a.rtcm3"], sample_1005); (["d"; "a-JSON"; "b.rtcm3"], sample_1029)]),
    [["d"; "a.rtcm3"]; ["d"; "a-JSON"; "b.rtcm3"]], ["d"; "a-JSON"; "b.rtcm3"],
    ["d"; "a-JSON"; "b-JSON"; "BASE"; "TextStr-1029.json"].
  split; [right; now left|]. split; [vm_compute; discriminate|]. split; [reflexivity|].
  split; [vm_compute; discriminate|]. split; vm_compute; reflexivity.
Qed.
Print Assumptions C42_nested_source_refuted.

Definition two_files : fs := files_of [(["d"; "a.rtcm3"], sample_1005); (["d"; "b.rtcm3"], sample_1029); (["d"; "b-JSON"; "old"], [1])].
Example C42_nonvacuous :
  let after := convert_all (fun l => l) "JSON" sample_box (fun _ => sample_os) two_files
                 (map (fun s => ["d"] ++ [(s ++ String dot "rtcm3")%string]) ["a"; "b"; "a"]) in
  map (present after) [["d"; "a.rtcm3"]; ["d"; "b.rtcm3"]; ["d"; "b-JSON"; "old"]; ["d"; "a-JSON"; "BASE"; "RefPoint-1005.json"];
    ["d"; "b-JSON"; "BASE"; "TextStr-1029.json"]; ["d"; "a-JSON"; "BASE"; "TextStr-1029.json"]] = [true; true; false; true; true; false].
Proof. vm_compute. reflexivity. Qed.

(** ** C47: where the products are *)

Lemma in_folder (d : path) a b files f : put d files (rmtree d f) (d ++ [a; b]) = sget files (a ++ "/" ++ b)%string.
Proof.
  unfold put. assert (I : inside d (d ++ [a; b]) = true) by (apply inside_spec; exists [a; b]; split; [discriminate|reflexivity]).
  rewrite I. rewrite skipn_app, Nat.sub_diag, skipn_all. cbn [app skipn]. unfold rmtree. rewrite I. destruct (sget files _); reflexivity.
Qed.
Lemma sget_app {V} (a b : list (string * V)) k : sget (a ++ b) k = match sget a k with Some v => Some v | None => sget b k end.
Proof. unfold sget. induction a as [|[k' v] a IH]; cbn [app dget fst snd]; [reflexivity|]. destruct (String.eqb k k'); [reflexivity|exact IH]. Qed.

(** What one conversion leaves in the work folder. *)
Lemma conversion_folder ord mode ctl env f src content segs rest f' status :
  In mode modes -> walk ord -> controls_ok (box_margo ctl) -> (forall n p, env src n p = true) ->
  inside (work_folder src mode) src = false -> f src = Some content -> bytes_ok content -> scans content segs rest ->
  convert_file ord mode ctl env f src = (f', Some status) ->
  let objs := objects mode (frames_of segs) in
  exists hist files, f' = put (work_folder src mode) files (rmtree (work_folder src mode) f) /\
    history_of (observations mode objs) hist /\
    (forall num e, zget JSON_SPEC num = Some e ->
       match numbered mode num objs with
       | [] => sget files (json_path e) = None
       | x :: r => exists text, sget files (json_path e) = Some text /\ JsonSpec.read_json text = Some (document (box_json ctl) x r)
       end) /\
    (forall g p sgn t, known g sgn ->
       match filter (goes_here (box_margo ctl) g p sgn t) hist with
       | [] => sget files (obs_path g p sgn t) = None
       | _ => exists text, sget files (obs_path g p sgn t) = Some text /\ file_of (box_margo ctl) g p sgn t hist text
       end) /\
    (forall path, sget files path <> None ->
       (exists num e, zget JSON_SPEC num = Some e /\ path = json_path e) \/
       (exists g p sgn t, known g sgn /\ path = obs_path g p sgn t)).
Proof.
  intros M O C EN NI FS B S CF objs. unfold convert_file in CF. destruct (f (work_folder src mode)); [discriminate|].
  destruct (PrinterProofs.factory_exists mode (env src) ctl M) as (c & F). rewrite F in CF.
  unfold rmtree at 1 in CF. rewrite NI, FS in CF. unfold regular_file in CF.
  assert (ZL : content <> [] -> zlen content <> 0) by (unfold zlen; destruct content; [congruence|cbn [length]; lia]).
  destruct (C38_json_files mode (env src) ctl c ord (zlen content) _ content segs rest F O C B (regular_reads content) ZL S EN) as (s & D & JF & JO).
  destruct (C38_obs_files mode (env src) ctl c ord (zlen content) _ content segs rest F O C B (regular_reads content) ZL S EN) as (s' & hist & D' & HM & OF & OO).
  assert (s' = s) as -> by congruence. clear D'. rewrite D in CF. fold objs in JF, HM.
  exists hist, (output_files (r_world s)). split; [congruence|]. split; [exact HM|]. unfold output_files.
  assert (JN : forall num e, zget JSON_SPEC num = Some e -> sget (mg_files (w_margo (r_world s))) (json_path e) = None).
  { intros num e E. destruct (sget (mg_files (w_margo (r_world s))) (json_path e)) eqn:X; [|reflexivity].
    destruct (OO (json_path e)) as (g & p & sgn & t & _ & Y); [congruence|]. destruct (C36_jargo_files_distinct num e g p sgn t E Y). }
  assert (ON : forall g p sgn t, sget (jp_files (w_json (r_world s))) (obs_path g p sgn t) = None).
  { intros g p sgn t. apply JO. intros num e E. now apply (C36_jargo_files_distinct num e). }
  split; [|split].
  - intros num e E. rewrite sget_app, (JN num e E). specialize (JF num e E). unfold holds in JF. destruct (numbered mode num objs); exact JF.
  - intros g p sgn t K. specialize (OF g p sgn t K). rewrite sget_app, ON. destruct (filter _ hist); [now rewrite OF|].
    destruct OF as (text & E & X). exists text. rewrite E. auto.
  - intros path. rewrite sget_app. destruct (sget (mg_files (w_margo (r_world s))) path) eqn:X.
    + intros _. right. apply OO. congruence.
    + intros Y. left. destruct (existsb (fun e => String.eqb (json_path (snd e)) path) JSON_SPEC) eqn:EX.
      * apply existsb_exists in EX. destruct EX as ((num & e) & I & E). cbn [snd] in E. apply String.eqb_eq in E.
        assert (ND : forallb (fun x => match zget JSON_SPEC (fst x) with Some e => String.eqb (json_path e) (json_path (snd x)) | None => false end) JSON_SPEC = true) by (vm_compute; reflexivity).
        rewrite forallb_forall in ND. specialize (ND _ I). cbn [fst snd] in ND.
        destruct (zget JSON_SPEC num) as [e'|] eqn:E'; [|discriminate]. apply String.eqb_eq in ND. exists num, e'. split; [exact E'|congruence].
      * destruct Y. apply JO. intros num e E Q. apply (dget_In Z.eqb z_eqb_spec) in E.
        assert (TT : existsb (fun e => String.eqb (json_path (snd e)) path) JSON_SPEC = true) by (apply existsb_exists; exists (num, e); split; [exact E|cbn; now apply String.eqb_eq]).
        congruence.
Qed.

(** The file for a message number (see C66 for its name) holds, after the conversion of the
    source, the document of exactly the objects of that number in the source, in order; if
    there are none the file does not exist, even if it did before. *)
Theorem C47_json_product : forall ord mode ctl env f src content segs rest f' status num sub name,
  In mode modes -> walk ord -> controls_ok (box_margo ctl) -> (forall n p, env src n p = true) ->
  inside (work_folder src mode) src = false -> f src = Some content -> bytes_ok content -> scans content segs rest ->
  convert_file ord mode ctl env f src = (f', Some status) -> json_place num sub name ->
  let file := work_folder src mode ++ [sub; name] in
  match numbered mode num (objects mode (frames_of segs)) with
  | [] => f' file = None
  | x :: r => exists text, f' file = Some text /\ JsonSpec.read_json text = Some (document (box_json ctl) x r)
  end.
Proof.
  intros ord mode ctl env f src content segs rest f' status num sub name M O C EN NI FS B S CF PL file.
  destruct (conversion_folder ord mode ctl env f src content segs rest f' status M O C EN NI FS B S CF) as (hist & files & -> & _ & J & _ & _).
  destruct (place_spec _ _ _ PL) as (e & E & <- & <-). specialize (J num e E). unfold file. rewrite in_folder. exact J.
Qed.
Print Assumptions C47_json_product.

(** Likewise for the observation files. *)
Theorem C47_obs_product : forall ord mode ctl env f src content segs rest f' status,
  In mode modes -> walk ord -> controls_ok (box_margo ctl) -> (forall n p, env src n p = true) ->
  inside (work_folder src mode) src = false -> f src = Some content -> bytes_ok content -> scans content segs rest ->
  convert_file ord mode ctl env f src = (f', Some status) ->
  exists hist,
    history_of (observations mode (objects mode (frames_of segs))) hist /\
    forall g p sgn t, known g sgn ->
      let file := work_folder src mode ++ [gnss_dir g; obs_file g p sgn t] in
      match filter (goes_here (box_margo ctl) g p sgn t) hist with
      | [] => f' file = None
      | _ => exists text, f' file = Some text /\ file_of (box_margo ctl) g p sgn t hist text
      end.
Proof.
  intros ord mode ctl env f src content segs rest f' status M O C EN NI FS B S CF.
  destruct (conversion_folder ord mode ctl env f src content segs rest f' status M O C EN NI FS B S CF) as (hist & files & -> & HM & _ & OF & _).
  exists hist. split; [exact HM|]. intros g p sgn t K. specialize (OF g p sgn t K). cbv zeta. rewrite in_folder. exact OF.
Qed.
Print Assumptions C47_obs_product.

(** Nothing else is in the work folder: neither leftovers of an earlier conversion nor files
    of other sources. *)
Theorem C47_nothing_else : forall ord mode ctl env f src content segs rest f' status p text,
  In mode modes -> walk ord -> controls_ok (box_margo ctl) -> (forall n p, env src n p = true) ->
  inside (work_folder src mode) src = false -> f src = Some content -> bytes_ok content -> scans content segs rest ->
  convert_file ord mode ctl env f src = (f', Some status) ->
  inside (work_folder src mode) p = true -> f' p = Some text ->
  exists a b, p = work_folder src mode ++ [a; b] /\
    ((exists num sub name, json_place num sub name /\ (a ++ "/" ++ b)%string = (sub ++ "/" ++ name)%string /\
        numbered mode num (objects mode (frames_of segs)) <> []) \/
     (exists g par sgn t, known g sgn /\ (a ++ "/" ++ b)%string = obs_path g par sgn t)).
Proof.
  intros ord mode ctl env f src content segs rest f' status p text M O C EN NI FS B S CF I T.
  destruct (conversion_folder ord mode ctl env f src content segs rest f' status M O C EN NI FS B S CF) as (hist & files & -> & _ & J & _ & ALL).
  apply inside_spec in I. destruct I as (r & N & ->).
  assert (I : inside (work_folder src mode) (work_folder src mode ++ r) = true) by (apply inside_spec; exists r; auto).
  pose proof T as T0. unfold put, rmtree in T. rewrite I, skipn_app, Nat.sub_diag, skipn_all in T. cbn [app skipn] in T.
  destruct r as [|a [|b [|? ?]]]; try discriminate T. exists a, b. split; [reflexivity|].
  rewrite in_folder in T0. destruct (ALL (a ++ "/" ++ b)%string) as [(num & e & E & P)|X]; [congruence| |right; exact X].
  left. exists num, (js_dir e), (js_file e). split; [exact (spec_place _ _ E)|]. split; [exact P|]. intros Z. specialize (J num e E). rewrite Z, <- P in J. congruence.
Qed.
Print Assumptions C47_nothing_else.

Example C47_nonvacuous :
  inside (work_folder ["d"; "a.rtcm3"] "JARGO") ["d"; "a.rtcm3"] = false /\
  (let f0 := files_of [(["d"; "a.rtcm3"], sample_content); (["d"; "a-JARGO"; "BASE"; "TextStr-1029.json"], [1])] in
   let '(f', status) := convert_file (fun l => l) "JARGO" sample_box (fun _ => sample_os) f0 ["d"; "a.rtcm3"] in
   status = Some WithoutErrors /\
   map (fun num => present f' (fst (fst (make_opath ["d"; "a.rtcm3"] num "JARGO")))) [1005; 1029; 1077] = [true; false; false] /\
   present f' ["d"; "a-JARGO"; "GPS"; obs_file GPS CodeRange "1C" MSM7] = true).
Proof. split; [reflexivity|]. vm_compute. repeat split. Qed.
