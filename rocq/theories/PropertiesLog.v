(** * The log of a conversion: C61, C62. *)
From Coq Require Import Permutation Reals Lra.
From Flocq Require Import Core BinarySingleNaN.
From Verif Require Import PyBase PyDict PyFloat PyVal PyFormat FormatSpec FormatProofs FloatProofs BitsSpec BitsModel BitsProofs CleanProofs MessageSpec FramerModel FramerSpec FramerProofs
  PropertiesStream TablesModel MsmModel MsmSpec MsmProofs MsmTheorems MsmScaleSpec MsmScaleTheorems PropertiesMsm PropertiesMsmScaled TestData
  DecoderModel DecoderSpec DecoderProofs PropertiesDecoder
  JsonModel JsonFileSpec JsonFiles JsonDecoded PropertiesJson MargoModel MargoSpec MargoProofs MargoFiles PropertiesMargo PrinterModel PrinterSpec PrinterProofs PropertiesPrinter MainModel MainSpec MainProofs
  PropertiesMain ControlsModel SessionModel LogModel LogSpec LogProofs LogFrames LogRun.
Local Open Scope string_scope.
Local Open Scope list_scope.
Local Open Scope Z_scope.

(** Texts of exceptions and paths, and what an operation has logged when it is interrupted:
    the theorems hold for all of them. *)
Section C61.
Context (why : list Z -> exn -> text) (path_text error_text : string -> text) (assertion : rtcm_obj -> text) (class_text : string -> text).
Context (fpath : text) (exn_text : exn -> text) (stray : nat -> list line) (missing : bool).
Notation file_log ord faults mode env ctl :=
  (decode_rtcm_file_log why path_text error_text assertion class_text ord faults (is_bare mode) env (box_margo ctl) fpath exn_text stray missing).
Notation told := (told path_text error_text assertion).

(** ** Without its lines the run is the run of C38, however it is disturbed *)
Theorem C61_same_run : forall ord faults mode env ctl src s l s' l' r,
  file_log ord faults mode env ctl src s l = (s', l', r) -> decode_rtcm_file ord faults src s = (s', r).
Proof.
  intros ord faults mode env ctl src s l s' l' r H.
  rewrite <- (erased_file why path_text error_text assertion class_text ord faults (is_bare mode) env (box_margo ctl) fpath exn_text stray missing src s l).
  now rewrite H.
Qed.

Lemma progress_shown size done st : progress size done st (progress_text size done st).
Proof. eexists. split; [reflexivity|]. cbv zeta. intros F. apply fmt_float_finite; [lia|exact F]. Qed.

Lemma reads_prefix (reads : list (list Z)) content k : bytes_ok content -> reads_ok reads content ->
  bytes_ok (concat (firstn k reads)) /\ reads_ok (firstn k reads) (concat (firstn k reads)) /\ Forall bytes_ok (firstn k reads).
Proof.
  intros B (R & N). rewrite <- (firstn_skipn k reads), concat_app in R. subst content. apply Forall_app in B. destruct B as [B _].
  split; [exact B|]. split; [split; [reflexivity|]; intros I; apply N; rewrite <- (firstn_skipn k reads); apply in_or_app; now left|].
  apply Forall_forall. intros x I. apply Forall_forall. intros b Ib. unfold bytes_ok in B. rewrite Forall_forall in B. apply B. apply in_concat. eauto.
Qed.

(** The converter at the end of an undisturbed conversion. *)
Lemma final_converter mode env ctl c ord size reads content fr ms d p w :
  factory mode true env ctl = Ok (Some c) -> walk ord -> controls_ok (box_margo ctl) ->
  bytes_ok content -> reads_ok reads content -> (content <> [] -> size <> 0) ->
  feed (cv_framer c) reads = Ok (fr, ms) -> proc ord (cv_decoder c, cv_printer c, world_init) ms = ((d, p, w), Ok tt) ->
  exists s ps, file_log ord no_faults mode env ctl (Some (size, reads)) (started c) [] = (s, greeting fpath :: written ps ++ [farewell fpath true], Ok true) /\
    r_conv s = {| cv_framer := fr; cv_decoder := d; cv_printer := p |} /\
    parts_of why path_text error_text assertion class_text ord mode env ctl size 0 (cv_framer c) (cv_decoder c, cv_printer c, world_init) reads ps fr (d, p, w).
Proof.
  intros F O C B R Z FE P. destruct (C11_parse_errors_exact [content] ltac:(constructor; [exact B|constructor])) as (_ & segs & rest & _ & S & _).
  cbn [concat] in S. rewrite app_nil_r in S.
  destruct (conversion mode env ctl c ord size reads content segs rest F O C B R Z S) as (s0 & D & _).
  destruct (top_close ord p w) as [w' r] eqn:TC.
  assert (Z' : reads <> [] -> size <> 0).
  { intros NE. apply Z. destruct R as (<- & N). destruct reads as [|x reads]; [congruence|]. destruct x; [exfalso; apply N; now left|discriminate]. }
  destruct (file_lines why path_text error_text assertion class_text ord mode env ctl fpath exn_text stray missing
    reads size (started c) fr ms d p w w' r Z' (proj2 R) FE P TC) as (s & ps & E & RC & PO).
  pose proof (C61_same_run _ _ _ _ _ _ _ _ _ _ _ E) as E'. rewrite D in E'.
  destruct r as [u|e]; [|congruence]. exists s, ps. split; [exact E|]. split; [exact RC|exact PO].
Qed.

(** ** C61: the log of an undisturbed conversion *)
Theorem C61_log : forall mode env ctl c ord size reads content,
  factory mode true env ctl = Ok (Some c) -> walk ord -> controls_ok (box_margo ctl) ->
  bytes_ok content -> reads_ok reads content -> (content <> [] -> size <> 0) ->
  exists s parts,
    file_log ord no_faults mode env ctl (Some (size, reads)) (started c) [] =
      (s, greeting fpath :: written parts ++ [farewell fpath true], Ok true) /\
    length parts = length reads /\
    (forall k segs rest, scans (concat (firstn k reads)) segs rest ->
       told mode env ctl (frames_of segs) (flat_map fst (firstn k parts))) /\
    (forall k ls t, nth_error parts k = Some (ls, t) ->
       exists s', decode_rtcm_file ord no_faults (Some (size, firstn (S k) reads)) (started c) = (s', Ok true) /\
         progress size (zlen (concat (firstn (S k) reads))) (get_statistics (r_conv s')) t).
Proof.
  intros mode env ctl c ord size reads content F O C B R Z.
  assert (BR : Forall bytes_ok reads).
  { destruct (reads_prefix reads content (length reads) B R) as (_ & _ & H). now rewrite firstn_all in H. }
  assert (FC : cv_framer c = framer_init) by (destruct (factory_inv _ _ _ _ _ F) as (_ & _ & FI & _); exact FI).
  destruct (C11_parse_errors_exact reads BR) as (fr & segs & rest & FE & S & _).
  pose proof (scans_frames_valid _ _ _ S) as V.
  destruct (run_state mode env ctl c ord (frames_of segs) F O C V) as (p & w & P & _).
  rewrite <- FC in FE.
  destruct (final_converter mode env ctl c ord size reads content _ _ _ _ _ F O C B R Z FE P) as (s & ps & E & RC & PO).
  exists s, ps. split; [exact E|]. split; [exact (parts_length _ _ _ _ _ _ _ _ _ _ _ _ _ _ _ _ _ PO)|]. split.
  - intros k segs' rest' S'. destruct (parts_upto _ _ _ _ _ _ _ _ _ _ _ _ _ _ _ _ _ PO k) as (frk & msk & sk & A & PK & ->).
    destruct (reads_prefix reads content k B R) as (_ & _ & BK). destruct (C11_parse_errors_exact _ BK) as (fr' & segs2 & rest2 & FE2 & S2 & _).
    rewrite FC, FE2 in A. destruct (scans_functional _ _ _ S' _ _ S2) as (<- & <-).
    assert (msk = frames_of segs') as -> by congruence. apply frames_told; auto. exact (scans_frames_valid _ _ _ S').
  - intros k ls t N. destruct (parts_progress _ _ _ _ _ _ _ _ _ _ _ _ _ _ _ _ _ PO k _ N) as (frk & msk & sk & A & PK & TX). cbn [snd] in TX.
    destruct (reads_prefix reads content (Datatypes.S k) B R) as (BK & RK & _). destruct sk as [[d' p'] w'].
    assert (ZK : concat (firstn (Datatypes.S k) reads) <> [] -> size <> 0).
    { intros NE. apply Z. destruct R as (<- & _). rewrite <- (firstn_skipn (Datatypes.S k) reads), concat_app. intros X. apply app_eq_nil in X. tauto. }
    destruct (final_converter mode env ctl c ord size _ _ _ _ _ _ _ F O C BK RK ZK A PK) as (s' & ps' & E' & RC' & _).
    exists s'. split; [exact (C61_same_run _ _ _ _ _ _ _ _ _ _ _ E')|]. rewrite TX, RC'. cbn [stats_of]. rewrite Z.add_0_l. apply progress_shown.
Qed.

(** A disturbed conversion: the log is a beginning of the undisturbed log, what the interrupted
    operation had logged, the lines about the exception and the farewell.  The farewell is
    missing if the release raises as well; if the exception arrives in the final part, nothing
    is added. *)
Theorem C61_interrupted : forall mode env ctl c ord size reads content k flt,
  factory mode true env ctl = Ok (Some c) -> walk ord -> controls_ok (box_margo ctl) ->
  bytes_ok content -> reads_ok reads content -> (content <> [] -> size <> 0) ->
  exists s whole, file_log ord no_faults mode env ctl (Some (size, reads)) (started c) [] = (s, whole, Ok true) /\
  let e := match flt with Before e => e | During e _ => e end in
  exists said unsaid s' log r,
    whole = said ++ unsaid /\
    file_log ord (fun i => if Nat.eqb i k then Some flt else None) mode env ctl (Some (size, reads)) (started c) [] = (s', log, r) /\
    let partial := match flt with Before _ => [] | During _ _ => stray k end in
    ((length (r_trace s) <= k)%nat /\ log = whole /\ r = Ok true \/
     log = said ++ partial ++ excuse exn_text missing e ++ [farewell fpath (Nat.ltb 0 k)] /\ r = Ok false \/
     (exists e', log = said ++ partial ++ excuse exn_text missing e /\ r = Err e') \/
     log = said ++ partial /\ r = Err e).
Proof.
  intros mode env ctl c ord size reads content k flt F O C B R Z.
  destruct (C61_log mode env ctl c ord size reads content F O C B R Z) as (s & parts & E & _).
  exists s. eexists. split; [exact E|]. cbv zeta.
  destruct (file_cut why path_text error_text assertion class_text ord (is_bare mode) env (box_margo ctl) fpath exn_text stray missing k flt
    size reads (started c) _ s eq_refl E) as (s' & la & lb & r' & EL & H).
  exists la, lb. destruct H as [(H & N)|[H|H]].
  - exists s. do 2 eexists. split; [exact EL|]. split; [exact H|]. left. auto.
  - exists s'. do 2 eexists. split; [exact EL|]. split; [exact H|]. right. destruct r' as [u|e']; [left; split; reflexivity|].
    right. left. exists e'. rewrite app_nil_r. split; reflexivity.
  - exists s'. do 2 eexists. split; [exact EL|]. split; [exact H|]. right. right. right. split; reflexivity.
Qed.

(** A source that cannot be opened. *)
Theorem C61_not_opened : forall mode env ctl c ord, factory mode true env ctl = Ok (Some c) -> walk ord ->
  exists s, file_log ord no_faults mode env ctl None (started c) [] =
    (s, excuse exn_text missing EOS ++ [farewell fpath false], Ok false).
Proof.
  intros mode env ctl c ord F O.
  assert (P : proc ord (cv_decoder c, cv_printer c, world_init) [] = ((cv_decoder c, cv_printer c, world_init), Ok tt)) by reflexivity.
  destruct (factory_inv _ _ _ _ _ F) as (_ & M & _).
  assert (CL : top_close ord (cv_printer c) world_init =
    ({| w_margo := margo_close (w_margo world_init); w_json := json_close (w_json world_init); w_calls := w_calls world_init |}, Ok tt)).
  { apply (close_printers mode env ctl c ord (cv_printer c) world_init F O eq_refl); auto. }
  unfold decode_rtcm_file_log, try_log.
  match goal with |- context[lperform no_faults stray OOpen ?a ?f ?s1 ?l1] => destruct (lperform_ok stray OOpen a f s1 l1) as (t & ->) end.
  cbv beta iota. unfold handler_log, landthen at 1.
  match goal with |- context[lsilent no_faults stray OLog ?a ?x ?y] => destruct (lsilent_ok stray OLog a x y) as (t1 & ->) end.
  unfold landthen at 1.
  match goal with |- context[lsilent no_faults stray OLog ?a ?x ?y] => destruct (lsilent_ok stray OLog a x y) as (t2 & ->) end.
  unfold lret at 1. cbv beta iota. unfold finally_log, landthen.
  match goal with |- context[lperform no_faults stray ORelease ?a ?f ?s1 ?l1] => destruct (lperform_ok stray ORelease a f s1 l1) as (t3 & ->) end.
  cbn [r_conv r_world started]. unfold cv_release. rewrite CL. cbv beta iota.
  match goal with |- context[lsilent no_faults stray OLog ?a ?x ?y] => destruct (lsilent_ok stray OLog a x y) as (t4 & ->) end.
  eexists. unfold lret. rewrite !app_nil_r. reflexivity.
Qed.
End C61.


(** ** The lines agree with the statistics *)
Lemma begins_app p t : begins p (p ++ t) = true.
Proof. induction p as [|a p IH]; [reflexivity|]. cbn. now rewrite Z.eqb_refl. Qed.
Lemma begins_start p q t : begins p q = false -> (length p <= length q)%nat -> begins p (q ++ t) = false.
Proof.
  revert q. induction p as [|a p IH]; intros [|b q] H L; cbn in *; try discriminate; try lia.
  destruct (a =? b); [|reflexivity]. apply IH; [exact H|lia].
Qed.
Lemma such_app lv p a b : such lv p (a ++ b) = such lv p a + such lv p b.
Proof. unfold such. rewrite filter_app. unfold zlen. now rewrite app_length, Nat2Z.inj_add. Qed.
Lemma such_none lv p ls : Forall (fun x => fst x <> lv \/ begins (ustr p) (snd x) = false) ls -> such lv p ls = 0.
Proof.
  unfold such. induction 1 as [|x ls H _ IH]; [reflexivity|]. cbn [filter].
  replace (level_eqb (fst x) lv && begins (ustr p) (snd x)) with false; [exact IH|].
  symmetry. apply andb_false_iff. destruct H as [H|H]; [|now right]. left. destruct x as [[] t], lv; cbn in *; congruence.
Qed.
Lemma such_one lv p t : such lv p [(lv, ustr p ++ t)] = 1.
Proof. unfold such. cbn [filter fst snd]. rewrite begins_app. destruct lv; reflexivity. Qed.
Lemma remark_not lv p x : remark x -> (lv = LInfo /\ begins (ustr p) (ustr "No fine ") = false /\ (String.length p <= 8)%nat) \/
   (lv = LWarning /\ begins (ustr p) (ustr "No coarse ") = false /\ begins (ustr p) (ustr "Msg 1230. Field ") = false /\ (String.length p <= 10)%nat) ->
  fst x <> lv \/ begins (ustr p) (snd x) = false.
Proof.
  assert (LU : length (ustr p) = String.length p) by (unfold ustr; induction p as [|a p IH]; cbn; congruence).
  intros [(E & H)|(E & (r & H))] K; rewrite E; destruct K as [(-> & A & L)|(-> & A & B & L)]; try (left; discriminate); right.
  - destruct H as [(r & ->)|(r & ->)]; (apply begins_start; [assumption|]); rewrite LU; cbn; lia.
  - rewrite H. apply begins_start; [exact A|]. rewrite LU. cbn. lia.
Qed.

Section Counts.
Context (path_text error_text : string -> text) (assertion : rtcm_obj -> text) (mode : string) (env : os) (ctl : boxed_controls).
Notation hist fs := (map Register (decoders_of mode) ++ map Decode fs).
Notation found := (such LInfo "Msg ").
Notation failed := (such LWarning "Decoder ").
Notation unknown := (such LInfo "Decoder not found, message ").

Lemma printed_counts before o ls lv p : printed path_text error_text assertion mode env ctl before o ls -> lv <> LError -> such lv p ls = 0.
Proof.
  intros H N. apply such_none. inversion H; subst.
  - destruct r; [constructor|]. constructor; [|constructor]. left. cbn. congruence.
  - apply Forall_forall. intros x I. apply in_flat_map in I. destruct I as (f & _ & I). cbn [not_created In] in I. left.
    destruct I as [<-|[<-|[]]]; cbn; congruence.
Qed.
Lemma remarks_counts rs : Forall remark rs -> found rs = 0 /\ failed rs = 0 /\ unknown rs = 0.
Proof.
  intros F. repeat split; apply such_none; (eapply Forall_impl; [|exact F]); intros x R.
  - apply (remark_not LInfo "Msg "); [exact R|]. left. repeat split; cbn; lia.
  - apply (remark_not LWarning "Decoder "); [exact R|]. right. repeat split; cbn; lia.
  - destruct R as [(E & _)|(E & (r & ->))]; [left; rewrite E; discriminate|]. right. reflexivity.
Qed.
Lemma served_same fs f : served (hist fs) f <-> served (map Register (decoders_of mode)) f.
Proof.
  split; intros (io & n & cls & I & N & C); exists io, n, cls; (split; [|split; [exact N|exact C]]); apply in_table; apply in_table in I.
  - now rewrite decoders_same in I.
  - now rewrite decoders_same.
Qed.
Lemma story_counts f ls fs : bytes_ok f -> story mode f ls ->
  found ls = dec_attempts (after (hist (fs ++ [f]))) - dec_attempts (after (hist fs)) - failed ls /\
  failed ls = dec_errors (after (hist (fs ++ [f]))) - dec_errors (after (hist fs)) /\
  unknown ls = 1 - found ls - failed ls.
Proof.
  intros B H. rewrite map_app. cbn [map]. rewrite app_assoc.
  pose proof (decode_cases (hist fs) f B) as D. rewrite served_same in D.
  rewrite (answer_same (map Register (decoders_of mode)) fs f) in D.
  inversion H as [n N U|n o rs N A R _|n rs e N S A R _ C]; subst.
  - destruct D as [(S & _)|(_ & _ & ->)]; [contradiction|]. split; [|split]; reflexivity || (cbn; lia).
  - destruct (remarks_counts rs R) as (R1 & R2 & R3). rewrite !such_app, R1, R2, R3.
    destruct D as [(S & E1 & [(o' & _ & E2)|(X & _)])|(_ & X & _)]; [|elim (X o A)|congruence]. rewrite E1, E2.
    assert (F : found [(LInfo, about n ++ ustr "Decoding succeeded" ++ summary o)] = 1).
    { unfold about. rewrite <- app_assoc. apply such_one. }
    rewrite F. change (failed [(LInfo, about n ++ ustr "Decoding succeeded" ++ summary o)]) with 0.
    assert (U : unknown [(LInfo, about n ++ ustr "Decoding succeeded" ++ summary o)] = 0) by (unfold about; rewrite <- app_assoc; reflexivity).
    rewrite U. lia.
  - destruct (remarks_counts rs R) as (R1 & R2 & R3). rewrite !such_app, R1, R2, R3.
    destruct D as [(_ & E1 & [(o' & X & _)|(_ & E2)])|(X & _)]; [congruence| |contradiction]. rewrite E1, E2.
    set (w := ustr "Decoder " ++ ustr (handled_by n) ++ ustr " returned unexpected result for msg " ++ number n).
    assert (F : failed [(LError, e); (LWarning, w)] = 1) by reflexivity.
    assert (G : found [(LError, e); (LWarning, w)] = 0) by reflexivity.
    assert (U : unknown [(LError, e); (LWarning, w)] = 0) by reflexivity.
    rewrite F, G, U. lia.
Qed.
Lemma told_counts fs ls : Forall bytes_ok fs -> told path_text error_text assertion mode env ctl fs ls ->
  found ls = dec_attempts (after (hist fs)) - dec_errors (after (hist fs)) /\ failed ls = dec_errors (after (hist fs)) /\
  unknown ls = zlen fs - dec_attempts (after (hist fs)).
Proof.
  intros B T. induction T as [|fs ls f l T IH S _|fs ls f l o pl T IH S _ P].
  - cbn [map]. rewrite app_nil_r.
    assert (Z : dec_attempts (after (map Register (decoders_of mode))) = 0 /\ dec_errors (after (map Register (decoders_of mode))) = 0).
    { unfold decoders_of. destruct (String.eqb mode "MARGO"); [split; reflexivity|]. destruct (is_bare mode); split; reflexivity. }
    destruct Z as [-> ->]. repeat split; reflexivity.
  - apply Forall_app in B. destruct B as [B Bf]. inversion Bf; subst. destruct (IH B) as (I1 & I2 & I3).
    destruct (story_counts f l fs H1 S) as (S1 & S2 & S3). rewrite !such_app. unfold zlen in *. rewrite app_length. cbn [length]. lia.
  - apply Forall_app in B. destruct B as [B Bf]. inversion Bf; subst. destruct (IH B) as (I1 & I2 & I3).
    destruct (story_counts f l fs H1 S) as (S1 & S2 & S3). rewrite !such_app.
    rewrite !(printed_counts _ _ _ _ _ P) by discriminate. unfold zlen in *. rewrite app_length. cbn [length]. lia.
Qed.
End Counts.

Lemma such_written lv p parts : lv <> LCritical -> such lv p (written parts) = such lv p (flat_map fst parts).
Proof.
  intros N. induction parts as [|[ls t] parts IH]; [reflexivity|]. cbn [written flat_map fst snd] in *. rewrite !such_app.
  unfold written in IH. rewrite IH. rewrite (such_none lv p [(LCritical, t)]); [lia|]. constructor; [|constructor]. left. cbn. congruence.
Qed.

Section C61b.
Context (why : list Z -> exn -> text) (path_text error_text : string -> text) (assertion : rtcm_obj -> text) (class_text : string -> text).
Context (fpath : text) (exn_text : exn -> text) (stray : nat -> list line) (missing : bool).
Notation file_log ord faults mode env ctl :=
  (decode_rtcm_file_log why path_text error_text assertion class_text ord faults (is_bare mode) env (box_margo ctl) fpath exn_text stray missing).

(** The log has one line "Msg ..." for every decoded message, one warning "Decoder ..." for
    every decoding error, and one line "Decoder not found ..." for every message that nobody
    decodes. *)
Theorem C61_counts : forall mode env ctl c ord size reads content segs rest,
  factory mode true env ctl = Ok (Some c) -> walk ord -> controls_ok (box_margo ctl) ->
  bytes_ok content -> reads_ok reads content -> (content <> [] -> size <> 0) -> scans content segs rest ->
  exists s log, file_log ord no_faults mode env ctl (Some (size, reads)) (started c) [] = (s, log, Ok true) /\
    let st := get_statistics (r_conv s) in
    such LInfo "Msg " log = decoding_attempts st - decoding_errors st /\
    such LWarning "Decoder " log = decoding_errors st /\
    such LInfo "Decoder not found, message " log = zlen (frames_of segs) - decoding_attempts st.
Proof.
  intros mode env ctl c ord size reads content segs rest F O C B R Z S.
  destruct (C61_log why path_text error_text assertion class_text fpath exn_text stray missing mode env ctl c ord size reads content F O C B R Z) as (s & parts & E & L & T & _).
  exists s. eexists. split; [exact E|]. cbv zeta.
  pose proof (C61_same_run _ _ _ _ _ _ _ _ _ _ _ _ _ _ _ _ _ _ _ _ E) as D.
  destruct (conversion mode env ctl c ord size reads content segs rest F O C B R Z S) as (s' & D' & (st & rs & _ & _ & ST) & _).
  assert (s' = s) as -> by congruence. rewrite ST. cbn [decoding_attempts decoding_errors].
  specialize (T (length reads) segs rest). rewrite <- L in T at 2. rewrite !firstn_all in T. rewrite (proj1 R) in T. specialize (T S).
  assert (BF : Forall bytes_ok (frames_of segs)).
  { pose proof (scans_frames_valid _ _ _ S) as V. eapply Forall_impl; [|exact V]. intros f. apply valid_frame_bytes. }
  destruct (told_counts _ _ _ _ _ _ _ _ BF T) as (A1 & A2 & A3).
  assert (H : forall lv p, lv = LInfo \/ lv = LWarning -> begins (ustr p) (snd (greeting fpath)) = false -> begins (ustr p) (snd (farewell fpath true)) = false ->
    such lv p (greeting fpath :: written parts ++ [farewell fpath true]) = such lv p (flat_map fst parts)).
  { intros lv p LV G W. change (greeting fpath :: written parts ++ [farewell fpath true]) with ([greeting fpath] ++ written parts ++ [farewell fpath true]).
    rewrite !such_app, such_written by (destruct LV as [-> | ->]; discriminate).
    rewrite (such_none lv p [greeting fpath]), (such_none lv p [farewell fpath true]); [lia| |]; (constructor; [|constructor]); right; assumption. }
  rewrite !H by (reflexivity || auto). auto.
Qed.

(** The last progress line says 100.00% when the size given by the operating system is the
    number of bytes read. *)
Lemma whole_percent z : 0 < z < 2 ^ 53 -> f_mul (f_div (f_of_int z) (f_of_int z)) (f_of_int 100) = f_of_int 100.
Proof.
  intros H. pose proof (f_of_int_exact z ltac:(lia)) as V. unfold dyadic in V. cbn [bpow] in V. rewrite Rmult_1_r in V.
  assert (NZ : IZR z <> 0%R) by (apply IZR_neq; lia).
  assert (Q : (IZR z / IZR z)%R = (IZR 1 * bpow radix2 0)%R) by (cbn [bpow]; field; exact NZ).
  assert (D : is_val (f_div (f_of_int z) (f_of_int z)) 1%R).
  { pose proof (div_val _ _ _ _ V V NZ) as X. rewrite Q in X. rewrite rnd_exact in X by lia.
    replace 1%R with (IZR 1 * bpow radix2 0)%R by (cbn [bpow]; ring). apply X. apply small_exact; lia. }
  pose proof (f_of_int_exact 100 ltac:(lia)) as H100. unfold dyadic in H100.
  assert (M : is_val (f_mul (f_div (f_of_int z) (f_of_int z)) (f_of_int 100)) (IZR 100 * bpow radix2 0)%R).
  { pose proof (mul_val _ _ _ _ D H100) as X. rewrite Rmult_1_l in X. rewrite rnd_exact in X by lia. apply X. apply small_exact; lia. }
  apply is_val_B in M, H100. destruct M as (b1 & -> & F1 & R1), H100 as (b2 & -> & F2 & R2). f_equal. apply B2R_inj.
  - destruct b1; try discriminate; [|reflexivity]. cbn in R1. exfalso. clear - R1. cbn [bpow] in R1. lra.
  - destruct b2; try discriminate; [|reflexivity]. cbn in R2. exfalso. clear - R2. cbn [bpow] in R2. lra.
  - congruence.
Qed.
Theorem C61_complete : forall mode env ctl c ord reads content,
  factory mode true env ctl = Ok (Some c) -> walk ord -> controls_ok (box_margo ctl) ->
  bytes_ok content -> reads_ok reads content -> 0 < zlen content < 2 ^ 53 ->
  exists s log r, file_log ord no_faults mode env ctl (Some (zlen content, reads)) (started c) [] =
    (s, log ++ [(LCritical, ustr "100.00%, " ++ r); farewell fpath true], Ok true).
Proof.
  intros mode env ctl c ord reads content F O C B R Z.
  assert (BR : Forall bytes_ok reads).
  { destruct (reads_prefix reads content (length reads) B R) as (_ & _ & H). now rewrite firstn_all in H. }
  assert (FC : cv_framer c = framer_init) by (destruct (factory_inv _ _ _ _ _ F) as (_ & _ & FI & _); exact FI).
  destruct (C11_parse_errors_exact reads BR) as (fr & segs & rest & FE & S & _).
  pose proof (scans_frames_valid _ _ _ S) as V.
  destruct (run_state mode env ctl c ord (frames_of segs) F O C V) as (p & w & P & _).
  rewrite <- FC in FE.
  destruct (final_converter why path_text error_text assertion class_text fpath exn_text stray missing mode env ctl c ord (zlen content) reads content _ _ _ _ _
    F O C B R ltac:(lia) FE P) as (s & ps & E & RC & PO).
  pose proof (parts_length _ _ _ _ _ _ _ _ _ _ _ _ _ _ _ _ _ PO) as L.
  assert (NE : reads <> []) by (intros ->; destruct R as (<- & _); cbn in Z; lia).
  destruct (exists_last (l := ps)) as (qs & [ls t] & ->); [intros ->; apply NE; now destruct reads|].
  rewrite app_length in L. cbn [length] in L.
  destruct (parts_progress _ _ _ _ _ _ _ _ _ _ _ _ _ _ _ _ _ PO (length qs) (ls, t)) as (frk & msk & sk & _ & _ & TX).
  { rewrite nth_error_app2, Nat.sub_diag by lia. reflexivity. }
  cbn [snd] in TX. rewrite firstn_all2, (proj1 R), Z.add_0_l in TX by lia.
  unfold progress_text in TX. rewrite whole_percent in TX by exact Z.
  assert (T100 : fmt_float 0 2 (f_of_int 100) = ustr "100.00") by (vm_compute; reflexivity). rewrite T100 in TX.
  exists s, (greeting fpath :: written qs ++ ls). eexists. rewrite E. unfold written. rewrite flat_map_app. cbn [flat_map fst snd app].
  rewrite app_nil_r, <- !app_assoc. cbn [app]. rewrite TX. reflexivity.
Qed.
End C61b.

Print Assumptions C61_same_run.
Print Assumptions C61_log.
Print Assumptions C61_interrupted.
Print Assumptions C61_not_opened.
Print Assumptions C61_counts.
Print Assumptions C61_complete.

(** ** C62: missing measurements *)

(** The lines about a message of observations, in the modes that convert to physical units and
    after any other messages: the remarks, then the line about the success. *)
Theorem C62_remarks : forall why mode frames f m codes,
  is_bare mode = false -> msm_ok m -> msm_nonempty m -> carries f (msm_bits m) -> passes_length_check m ->
  codes_of (m_gnss m) (m_sigs m) = Some codes ->
  decode_lines why false (after (map Register (decoders_of mode) ++ map Decode frames)) f =
    msm_remarks m codes ++
    [(LInfo, about (msm_number (m_gnss m) (m_type m)) ++ ustr "Decoding succeeded" ++ summary (OMsm (MsmScaled (scaled_of m codes))))].
Proof.
  intros why mode frames f m codes NB OK NE C P CO.
  destruct (carries_at _ _ C) as (rest & A & _ & _ & B & _). pose proof (get_msg_num_ok _ _ _ A) as N.
  set (n := msm_number (m_gnss m) (m_type m)) in *.
  assert (E : getbitu f 24 12 = Ok n) by (unfold get_msg_num in N; destruct (getbitu f 24 12) as [x|[]]; cbn in N; congruence).
  assert (MN : mnum f = Ok (Some n)) by (unfold mnum; now rewrite E).
  unfold decode_lines. rewrite decoders_same, MN. cbn [bits_lines app num_text].
  assert (TB : map snd (d_decoders (after (map Register (decoders_of mode)))) =
    sub_msm4567 false :: sub_msm123 false :: (if String.eqb mode "MARGO" then [] else [sub_eph false; sub_base false])).
  { unfold decoders_of. rewrite NB. destruct (String.eqb mode "MARGO"); reflexivity. }
  rewrite TB. cbn [find].
  assert (ACC : forall g t, accepts (Some (msm_number g t)) (sub_msm4567 false) = (match t with MSM1 | MSM2 | MSM3 => false | _ => true end) /\
      accepts (Some (msm_number g t)) (sub_msm123 false) = (match t with MSM1 | MSM2 | MSM3 => true | _ => false end) /\
      (accepts (Some (msm_number g t)) (sub_msm4567 false) = true -> zindex (msm47_spec false) (msm_number g t) = Ok "ObservablesMSM") /\
      (accepts (Some (msm_number g t)) (sub_msm123 false) = true -> zindex (msm13_spec false) (msm_number g t) = Ok "ObservablesMSM")).
  { intros g t. destruct g, t; (split; [vm_compute; reflexivity|]); (split; [vm_compute; reflexivity|]); split; intros X; vm_compute in X |- *; try discriminate X; reflexivity. }
  destruct (ACC (m_gnss m) (m_type m)) as (A1 & A2 & A3 & A4). fold n in A1, A2, A3, A4.
  assert (ML : msm_lines why false f = msm_remarks m codes ++
    [(LInfo, about n ++ ustr "Decoding succeeded" ++ summary (OMsm (MsmScaled (scaled_of m codes))))]).
  { unfold msm_lines. rewrite N. cbn [bits_lines app]. rewrite (proj1 (bare_decode_ok f m OK NE C) P), (convert_lines m codes OK NE CO).
    cbn [summary]. unfold msg_, about, number. cbn [num_text]. rewrite <- !app_assoc. reflexivity. }
  assert (DM : decode_msm17 false f = Ok (Some (MsmScaled (scaled_of m codes)))) by (rewrite (decode_scaled_ok f m OK NE C P), CO; reflexivity).
  assert (IS : isinstance (Some (OMsm (MsmScaled (scaled_of m codes)))) "ObservablesMSM" = true) by apply own_instance.
  destruct (accepts (Some n) (sub_msm4567 false)) eqn:AC.
  - cbn [sub_msm4567 sd_subset sd_decode sd_spec]. rewrite DM, (A3 eq_refl). cbn [wrap_msm bind option_map]. rewrite IS. cbn [negb].
    unfold sub_lines. cbn [String.eqb Ascii.eqb Bool.eqb orb]. rewrite ML, app_nil_r. reflexivity.
  - assert (AC2 : accepts (Some n) (sub_msm123 false) = true) by (rewrite A2; destruct (m_type m); congruence). rewrite AC2.
    cbn [sub_msm123 sd_subset sd_decode sd_spec]. rewrite DM, (A4 AC2). cbn [wrap_msm bind option_map]. rewrite IS. cbn [negb].
    unfold sub_lines. cbn [String.eqb Ascii.eqb Bool.eqb orb]. rewrite ML, app_nil_r. reflexivity.
Qed.
Print Assumptions C62_remarks.

(** Every measurement that a message of its type should carry and that is missing in the object
    is announced: by a line about the satellite or by a line about the cell. *)
Lemma in_cells g t s : forall row codes before j c code, nth_error row j = Some (Some c) -> nth_error codes j = Some code ->
  exists b, incl (cell_remarks g t s b code c) (cells_remarks g t s before row codes).
Proof.
  induction row as [|o row IH]; intros codes before j c code N1 N2; [destruct j; discriminate|].
  destruct codes as [|x codes]; [destruct j; discriminate|]. destruct j as [|j].
  - injection N1 as ->. injection N2 as ->. exists before. cbn [cells_remarks].
    apply incl_appl, incl_refl.
  - cbn [nth_error] in N1, N2. destruct (IH codes (before ++ [o]) j c code N1 N2) as (b & I). exists b.
    cbn [cells_remarks]. apply incl_appr. exact I.
Qed.
Lemma in_rows g t codes : forall rows k s row, In (s, row) rows -> exists k', incl (sat_remarks g t codes k' s row) (rows_remarks g t codes k rows).
Proof.
  induction rows as [|[s' row'] rows IH]; intros k s row I; [destruct I|]. cbn [rows_remarks]. destruct I as [E|I].
  - injection E as -> ->. exists k. apply incl_appl, incl_refl.
  - destruct (IH (k + zlen (row_cells row')) s row I) as (k' & J). exists k'. now apply incl_appr.
Qed.
Theorem C62_announced : forall buf m codes r,
  msm_ok m -> msm_nonempty m -> carries buf (msm_bits m) -> passes_length_check m ->
  codes_of (m_gnss m) (m_sigs m) = Some codes -> decode_msm17 false buf = Ok (Some (MsmScaled r)) ->
  forall s row j sig c, In (s, row) (m_rows m) -> nth_error codes j = Some sig -> nth_error row j = Some (Some c) ->
  let announced what := (exists k, In (coarse what (m_gnss m) (sd_id s) k) (msm_remarks m codes)) \/
                        In (fine what (m_gnss m) (sd_id s) sig) (msm_remarks m codes) in
  (has_range (m_type m) = true -> lookup (o_rng (ob_obs r)) sig (sd_id s) = None -> announced "range") /\
  (has_phase (m_type m) = true -> m_type m <> MSM3 -> lookup (o_phs (ob_obs r)) sig (sd_id s) = None -> announced "phase" \/ announced "range") /\
  (has_rate (m_type m) = true -> lookup (o_dpl (ob_obs r)) sig (sd_id s) = None -> announced "doppler").
Proof.
  intros buf m codes r OK NE C P CO D s row j sig c I NC NR announced.
  assert (r = scaled_of m codes) as -> by (rewrite (decode_scaled_ok buf m OK NE C P), CO in D; congruence).
  destruct (observables_ok m codes OK CO s row j sig (Some c) I NC NR) as (RG & DP & _ & PH).
  destruct (in_rows (m_gnss m) (m_type m) codes (m_rows m) 0 s row I) as (k & IR). fold (msm_remarks m codes) in IR.
  destruct (in_cells (m_gnss m) (m_type m) s row codes [] j c sig NR NC) as (b & IC).
  assert (CR : incl (cell_remarks (m_gnss m) (m_type m) s b sig c) (msm_remarks m codes)).
  { intros x X. apply IR. unfold sat_remarks. apply in_or_app. right. apply in_or_app. right. apply IC. exact X. }
  assert (SR : rough_ms (m_type m) s = None -> In (coarse "range" (m_gnss m) (sd_id s) k) (msm_remarks m codes)).
  { intros X. apply IR. unfold sat_remarks. rewrite X. apply in_or_app. left. now left. }
  change (ob_obs (scaled_of m codes)) with (scaled_obs m codes). cbn [of_cell] in *. repeat split.
  - intros H L. rewrite RG in L. unfold code_range in L. rewrite H in L. destruct (rough_ms (m_type m) s) as [x|] eqn:RM.
    + right. apply CR. unfold cell_remarks. rewrite RM. apply in_or_app. left. apply in_or_app. left.
      destruct (range_invalid (m_type m) c); [rewrite H; now left|discriminate].
    + left. exists k. auto.
  - intros H N3 L. destruct (PH N3) as (PH' & _). rewrite PH' in L. unfold phase_range in L. rewrite H in L. destruct (rough_ms (m_type m) s) as [x|] eqn:RM.
    + left. right. apply CR. unfold cell_remarks. rewrite RM. apply in_or_app. left. apply in_or_app. right.
      destruct (phase_invalid (m_type m) c); [|discriminate]. rewrite H. unfold blocked. destruct (m_type m); try (now left). congruence.
    + right. left. exists k. auto.
  - intros H L. rewrite DP in L. unfold phase_rate in L. rewrite H in L. cbn [andb] in L. destruct (marks_invalid 14 (sd_rate s)) eqn:MI.
    + left. exists k. apply IR. unfold sat_remarks. rewrite H, MI. apply in_or_app. right. apply in_or_app. left. now left.
    + right. apply CR. unfold cell_remarks. apply in_or_app. right. rewrite H, MI. destruct (marks_invalid 15 (cd_rate c)); [now left|discriminate].
Qed.
Print Assumptions C62_announced.

(** ** Examples *)
Definition sample_log (mode : string) (faults : nat -> option fault) (src : source) : list line * res bool :=
  let '(s, l, r) := decode_rtcm_file_log (fun _ _ => ustr "why") ustr (fun _ => ustr "error") (fun _ => ustr "assertion") ustr (fun l => l) faults
    (is_bare mode) sample_os (box_margo sample_box) (ustr "a.rtcm3") (fun _ => ustr "exception") (fun _ => []) true src (started (sample_conv mode)) [] in (l, r).
(** Two messages and a junk byte; the same, interrupted at the print of the first message; a
    missing file. *)
Example C61_nonvacuous :
  sample_log "JARGO" no_faults (regular_file sample_content) =
    ([(LInfo, ustr "Opened file a.rtcm3."); (LInfo, ustr "Msg 1005. Decoding succeeded");
      (LInfo, ustr "Msg 1077. Decoding succeeded. t = 399442000, sats = 11.");
      (LCritical, ustr "100.00%, 2 messages, prs-dec-prnt errors 1-0-0."); (LInfo, ustr "Closing file a.rtcm3.")], Ok true) /\
  sample_log "JARGO" (interrupt_at 6) (regular_file sample_content) =
    ([(LInfo, ustr "Opened file a.rtcm3."); (LInfo, ustr "Msg 1005. Decoding succeeded");
      (LError, ustr "Processing terminated by the user."); (LInfo, ustr "Closing file a.rtcm3.")], Ok false) /\
  sample_log "MARGO" no_faults (regular_file sample_1005) =
    ([(LInfo, ustr "Opened file a.rtcm3."); (LInfo, ustr "Decoder not found, message 1005");
      (LCritical, ustr "100.00%, 0 messages, prs-dec-prnt errors 0-0-0."); (LInfo, ustr "Closing file a.rtcm3.")], Ok true) /\
  sample_log "JARGO" no_faults None =
    ([(LError, ustr "Got FileNotFoundError exception."); (LError, ustr "exception"); (LInfo, ustr "Source file a.rtcm3 wasn't opened.")], Ok false).
Proof. vm_compute. repeat split; reflexivity. Qed.

(** A message with an unknown rough range and a cell without range, phase and Doppler. *)
Definition gappy : msm := sample_msm MSM7 [2; 16]
  [({| sd_id := 3; sd_ms := 255; sd_ext := 3; sd_rough := 500; sd_rate := -8192 |}, [Some (sample_cell 1); None]);
   (sample_sat 17, [Some {| cd_rng := - 2 ^ 19; cd_phs := - 2 ^ 23; cd_lock := 5; cd_half := 0; cd_cnr := 40; cd_rate := - 2 ^ 14 |}; Some (sample_cell 3)])].
Example C62_nonvacuous :
  msm_ok gappy /\ msm_nonempty gappy /\ carries (frame_bits (msm_bits gappy) [9; 8; 7]) (msm_bits gappy) /\ passes_length_check gappy /\
  codes_of (m_gnss gappy) (m_sigs gappy) = Some ["1C"; "2L"] /\
  msm_remarks gappy ["1C"; "2L"] =
    [(LWarning, ustr "No coarse range:gnss=G,(sat=3,sgn_idx=0)"); (LWarning, ustr "No coarse doppler:gnss=G,(sat=3,sgn_idx=0)");
     (LInfo, ustr "No fine range:gnss=G,(sat=17,sgn='1C')"); (LInfo, ustr "No fine phase:gnss=G,(sat=17,sgn='1C')");
     (LInfo, ustr "No fine doppler:gnss=G,(sat=17,sgn='1C')")].
Proof.
  split; [msm_ok_tac|]. split; [discriminate|]. split; [apply frame_bits_carries; [vm_compute; discriminate|reflexivity|apply bytes_okb_ok; reflexivity]|].
  split; [vm_compute; reflexivity|]. split; vm_compute; reflexivity.
Qed.
