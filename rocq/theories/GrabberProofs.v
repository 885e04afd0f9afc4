(** * GrabberProofs: the capturing of test data, for all histories. *)
From Verif Require Import PyBase PyDict PyVal BitsModel BitsSpec BitsProofs FramerModel DecoderModel DecoderSpec DecoderProofs
  GrabberModel GrabberSpec.
Local Open Scope string_scope.
Local Open Scope list_scope.
Local Open Scope Z_scope.

Lemma mnum_number msg : bytes_ok msg -> mnum msg = Ok (number_of msg).
Proof.
  intros B. unfold number_of. destruct (mnum_cases msg B) as [(n & [L ->] & ->)|[N ->]].
  - apply Nat.leb_le in L. now rewrite L.
  - destruct (Nat.leb 36 _) eqn:L; [|reflexivity]. apply Nat.leb_le in L.
    exfalso. exact (N _ (conj L eq_refl)).
Qed.

Lemma decode_all_off can st g d msgs :
  decode_all can None st g d msgs =
  (let '(l, st, _, _) := decode_all can None st g d msgs in (l, st, g, d)).
Proof.
  revert st. induction msgs as [|m r IH]; intros st; [reflexivity|].
  cbn [decode_all decode_grab]. destruct (decode st m) as [a st'].
  rewrite IH. destruct (decode_all can None st' g d r) as [[[l st2] g2] d2]. reflexivity.
Qed.

Lemma table_with g mode t : table grabber_init mode <> [] -> table (with_table g mode t) mode = t.
Proof.
  unfold table, with_table. repeat (destruct (String.eqb mode _); [reflexivity|]). congruence.
Qed.

Lemma with_number_snoc n l m : with_number n (l ++ [m]) =
  with_number n l ++ (match number_of m with Some k => if k =? n then [m] else [] | None => [] end).
Proof.
  unfold with_number. rewrite filter_app. f_equal. cbn [filter].
  destruct (number_of m) as [k|]; [|reflexivity]. now destruct (k =? n).
Qed.

(** The messages an entry keeps, out of those with its number. *)
Definition keep (s : scenario) (l : list (list Z)) : list (list Z) :=
  firstn (Z.to_nat (s_cnt s)) (skipn (Z.to_nat (s_delay s)) l).

(** An entry of the table and the file, after the messages [l] with its number. *)
Definition entry_after (s : scenario) (l : list (list Z)) : scenario :=
  {| s_fname := s_fname s; s_cnt := s_cnt s - zlen (keep s l); s_delay := Z.max 0 (s_delay s - zlen l);
     s_fp := match keep s l with [] => NoFile | _ => if s_cnt s - zlen (keep s l) =? 0 then Closed else Open end |}.
Definition file_after (s : scenario) (l : list (list Z)) (before : option (list Z)) : option (list Z) :=
  match keep s l with [] => before | k => Some (concat k) end.

Definition fresh (s : scenario) : Prop := 0 < s_cnt s /\ 0 <= s_delay s /\ s_fp s = NoFile.

Lemma skipn_snoc {A} n (l : list A) x : (n <= length l)%nat -> skipn n (l ++ [x]) = skipn n l ++ [x].
Proof. intros L. rewrite skipn_app. now replace (n - length l)%nat with 0%nat by lia. Qed.

Lemma keep_wait s l m : fresh s -> zlen l < s_delay s -> keep s (l ++ [m]) = [] /\ keep s l = [].
Proof.
  intros (C & D & _) L. unfold keep, zlen in *. split.
  - rewrite skipn_all2 by (rewrite app_length; cbn [length]; lia). apply firstn_nil.
  - rewrite skipn_all2 by lia. apply firstn_nil.
Qed.
Lemma keep_full s l m : fresh s -> s_cnt s = zlen (keep s l) -> keep s (l ++ [m]) = keep s l.
Proof.
  intros (C & D & _) L. unfold keep, zlen in *. rewrite firstn_length, skipn_length in L.
  rewrite skipn_snoc by lia. rewrite firstn_app, skipn_length.
  replace (Z.to_nat (s_cnt s) - (length l - Z.to_nat (s_delay s)))%nat with 0%nat by lia.
  cbn [firstn]. apply app_nil_r.
Qed.
Lemma keep_more s l m : fresh s -> s_delay s <= zlen l -> zlen (keep s l) <> s_cnt s ->
  keep s (l ++ [m]) = keep s l ++ [m] /\ zlen (keep s l) < s_cnt s.
Proof.
  intros (C & D & _) L N. unfold keep, zlen in *. rewrite firstn_length, skipn_length in *.
  split; [|lia]. rewrite skipn_snoc by lia. rewrite !firstn_all2 by (rewrite ?app_length, ?skipn_length; cbn [length]; lia).
  reflexivity.
Qed.

(** One message with the number of an entry. *)
Lemma entry_step can s l m d d0 : fresh s -> can (s_fname s) = true ->
  d (s_fname s) = file_after s l d0 ->
  let s1 := entry_after s l in
  let r := if negb (s_delay s1 =? 0)
           then ({| s_fname := s_fname s1; s_cnt := s_cnt s1; s_delay := s_delay s1 - 1; s_fp := s_fp s1 |}, d, Ok tt)
           else if s_cnt s1 =? 0 then (s1, d, Ok tt)
           else save_message can s1 d m in
  fst (fst r) = entry_after s (l ++ [m]) /\ snd r = Ok tt /\
  (forall x, snd (fst r) x = if String.eqb x (s_fname s) then file_after s (l ++ [m]) d0 else d x).
Proof.
  intros F Cn Fd s1. pose proof F as (C & D & Fp). subst s1. cbn [entry_after s_delay s_cnt s_fp s_fname].
  assert (Z1 : zlen (l ++ [m]) = zlen l + 1) by (unfold zlen; rewrite app_length; cbn [length]; lia).
  assert (Sx : forall x, d x = if String.eqb x (s_fname s) then file_after s l d0 else d x).
  { intros x. destruct (String.eqb x (s_fname s)) eqn:E; [|reflexivity].
    apply String.eqb_eq in E. now subst x. }
  destruct (Z.max 0 (s_delay s - zlen l) =? 0) eqn:Ed; cbn [negb].
  - apply Z.eqb_eq in Ed. destruct (s_cnt s - zlen (keep s l) =? 0) eqn:Ec.
    + apply Z.eqb_eq in Ec. cbn [fst snd]. assert (K : keep s (l ++ [m]) = keep s l) by (apply keep_full; [exact F|lia]).
      split; [|split; [reflexivity|]].
      * unfold entry_after. rewrite K, Z1. f_equal. lia.
      * intros x. rewrite (Sx x) at 1. unfold file_after. now rewrite K.
    + apply Z.eqb_neq in Ec. destruct (keep_more s l m F) as [K Lt]; [lia..|].
      assert (Kn : keep s (l ++ [m]) <> []) by (rewrite K; destruct (keep s l); discriminate).
      assert (Zk : zlen (keep s (l ++ [m])) = zlen (keep s l) + 1)
        by (rewrite K; unfold zlen; rewrite app_length; cbn [length]; lia).
      assert (Fa : file_after s (l ++ [m]) d0 = Some (concat (keep s l) ++ m)).
      { unfold file_after. rewrite K. destruct (keep s l ++ [m]) eqn:X; [destruct (keep s l); discriminate|].
        rewrite <- X, concat_app. cbn [concat]. now rewrite app_nil_r. }
      assert (Fe : entry_after s (l ++ [m]) =
        {| s_fname := s_fname s; s_cnt := s_cnt s - zlen (keep s l) - 1; s_delay := Z.max 0 (s_delay s - zlen l);
           s_fp := if s_cnt s - zlen (keep s l) - 1 =? 0 then Closed else Open |}).
      { unfold entry_after. rewrite Zk, Z1. replace (s_cnt s - (zlen (keep s l) + 1)) with (s_cnt s - zlen (keep s l) - 1) by lia.
        f_equal; [lia|]. destruct (keep s (l ++ [m])); [congruence|reflexivity]. }
      unfold save_message. rewrite Fe; unfold entry_after.
      cbn [s_fp s_fname s_cnt s_delay] in *.
      destruct (keep s l) as [|k0 kr] eqn:Kl.
      * rewrite Cn. cbn [fst snd]. rewrite Fa. split; [reflexivity|]. split; [reflexivity|].
        intros x. unfold set_file. rewrite String.eqb_refl. cbn [app concat]. destruct (String.eqb x (s_fname s)); reflexivity.
      * destruct (s_cnt s - zlen (k0 :: kr) =? 0) eqn:X; [apply Z.eqb_eq in X; lia|].
        cbn [fst snd]. rewrite Fa, Fd. unfold file_after. rewrite Kl. split; [reflexivity|]. split; [reflexivity|].
        intros x. unfold set_file. destruct (String.eqb x (s_fname s)); reflexivity.
  - apply Z.eqb_neq in Ed. cbn [fst snd]. destruct (keep_wait s l m F) as [K1 K2]; [lia|].
    split; [|split; [reflexivity|]].
    + unfold entry_after. rewrite K1, K2, Z1. f_equal. lia.
    + intros x. rewrite (Sx x) at 1. unfold file_after. now rewrite K1, K2.
Qed.

(** The whole table. *)
Definition after_msgs (t : list (Z * scenario)) (msgs : list (list Z)) : list (Z * scenario) :=
  map (fun ns => (fst ns, entry_after (snd ns) (with_number (fst ns) msgs))) t.

Lemma after_get t msgs n : zget (after_msgs t msgs) n =
  option_map (fun s => entry_after s (with_number n msgs)) (zget t n).
Proof.
  unfold zget. induction t as [|[k s] r IH]; [reflexivity|]. cbn [after_msgs map dget fst snd].
  destruct (n =? k) eqn:E; [|exact IH]. apply Z.eqb_eq in E. now subst k.
Qed.
Lemma after_skip t msgs m : (forall n, number_of m = Some n -> zget t n = None) ->
  after_msgs t (msgs ++ [m]) = after_msgs t msgs.
Proof.
  intros H. unfold after_msgs. apply map_ext_in. intros [k s] I. cbn [fst snd]. f_equal. f_equal.
  rewrite with_number_snoc. destruct (number_of m) as [n|] eqn:E; [|apply app_nil_r].
  destruct (n =? k) eqn:X; [|apply app_nil_r]. apply Z.eqb_eq in X. subst k.
  specialize (H n eq_refl). apply (dget_None Z.eqb z_eqb_spec) in H. exfalso. apply H.
  now apply (in_map fst) in I.
Qed.
Lemma after_set t msgs m n s : NoDup (map fst t) -> number_of m = Some n -> zget t n = Some s ->
  zset (after_msgs t msgs) n (entry_after s (with_number n msgs ++ [m])) = after_msgs t (msgs ++ [m]).
Proof.
  intros ND E. unfold zset, zget. induction t as [|[k s'] r IH]; cbn [dget]; [discriminate|].
  cbn [map fst] in ND. inversion ND as [|? ? NI ND']; subst. cbn [after_msgs map dset fst snd].
  rewrite with_number_snoc, E. destruct (n =? k) eqn:X.
  - apply Z.eqb_eq in X. subst k. intros [= ->]. f_equal.
    symmetry. change (after_msgs r (msgs ++ [m]) = after_msgs r msgs). apply after_skip.
    rewrite E. intros n' [= <-]. now apply (dget_None Z.eqb z_eqb_spec).
  - intros G. rewrite app_nil_r. f_equal. now apply IH.
Qed.

Definition names (t : list (Z * scenario)) : list string := map (fun ns => s_fname (snd ns)) t.

(** The state after the messages. *)
Definition held can (t : list (Z * scenario)) (d0 d : folder) (msgs : list (list Z)) : Prop :=
  (forall n s, zget t n = Some s -> can (s_fname s) = true) /\
  (forall n s, zget t n = Some s -> d (s_fname s) = file_after s (with_number n msgs) (d0 (s_fname s))) /\
  (forall x, ~ In x (names t) -> d x = d0 x).

Lemma save_step can g d0 d msgs m mode t : t <> [] -> table grabber_init mode = t ->
  NoDup (map fst t) -> NoDup (names t) -> Forall (fun ns => fresh (snd ns)) t ->
  held can t d0 d msgs -> table g mode = after_msgs t msgs ->
  exists g' d', save can g d (number_of m) m mode = (g', d', Ok tt) /\
    held can t d0 d' (msgs ++ [m]) /\ table g' mode = after_msgs t (msgs ++ [m]).
Proof.
  intros NE T0 ND NN Fr (Hc & Hf & Hx) T. unfold save.
  assert (Skip : (forall n, number_of m = Some n -> zget t n = None) ->
    held can t d0 d (msgs ++ [m]) /\ table g mode = after_msgs t (msgs ++ [m])).
  { intros N. rewrite (after_skip _ _ _ N). split; [|exact T]. split; [exact Hc|]. split; [|exact Hx].
    intros n s G. rewrite (Hf n s G). f_equal. rewrite with_number_snoc.
    destruct (number_of m) as [k|]; [|now rewrite app_nil_r]. specialize (N k eq_refl).
    destruct (k =? n) eqn:E; [apply Z.eqb_eq in E; congruence|now rewrite app_nil_r]. }
  destruct (number_of m) as [n|] eqn:En; [|exists g, d; split; [reflexivity|apply Skip; discriminate]].
  rewrite T, after_get. destruct (zget t n) as [s|] eqn:G; cbn [option_map].
  2:{ exists g, d. split; [reflexivity|]. apply Skip. now intros k [= <-]. }
  clear Skip. pose proof (proj1 (Forall_forall _ _) Fr _ (dget_In Z.eqb z_eqb_spec _ _ _ G)) as F. cbn [snd] in F.
  destruct (entry_step can s (with_number n msgs) m d (d0 (s_fname s)) F (Hc n s G) (Hf n s G)) as (E1 & E2 & E3).
  set (s1 := entry_after s (with_number n msgs)) in *.
  assert (Held : forall d', (forall x, d' x = if String.eqb x (s_fname s)
      then file_after s (with_number n msgs ++ [m]) (d0 (s_fname s)) else d x) -> held can t d0 d' (msgs ++ [m])).
  { intros d' E. split; [exact Hc|]. split.
    - intros k s' G'. rewrite E, with_number_snoc, En.
      destruct (String.eqb (s_fname s') (s_fname s)) eqn:X.
      + apply String.eqb_eq in X.
        assert (Ek : n = k).
        { pose proof (dget_In Z.eqb z_eqb_spec _ _ _ G) as I. pose proof (dget_In Z.eqb z_eqb_spec _ _ _ G') as I'.
          clear - NN I I' X. unfold names in NN. induction t as [|[k0 s0] r IH]; [destruct I|].
          cbn [map snd] in NN. inversion NN as [|? ? NI ND]; subst.
          destruct I as [I|I], I' as [I'|I']; [congruence|..|now apply IH].
          - injection I as -> ->. exfalso. apply NI. rewrite <- X. exact (in_map (fun ns => s_fname (snd ns)) _ _ I').
          - injection I' as -> ->. exfalso. apply NI. rewrite X. exact (in_map (fun ns => s_fname (snd ns)) _ _ I). }
        subst k. rewrite G in G'. injection G' as ->. now rewrite Z.eqb_refl.
      + destruct (n =? k) eqn:Y; [|rewrite app_nil_r; now apply Hf].
        apply Z.eqb_eq in Y. subst k. rewrite G in G'. injection G' as ->. now rewrite String.eqb_refl in X.
    - intros x N. rewrite E. destruct (String.eqb x (s_fname s)) eqn:X; [|now apply Hx].
      apply String.eqb_eq in X. subst x. exfalso. apply N.
      exact (in_map (fun ns => s_fname (snd ns)) _ _ (dget_In Z.eqb z_eqb_spec _ _ _ G)). }
  assert (Tab : forall g1, table (with_table g1 mode (zset (after_msgs t msgs) n (entry_after s (with_number n msgs ++ [m])))) mode
    = after_msgs t (msgs ++ [m])).
  { intros g1. rewrite table_with by congruence. now apply after_set. }
  destruct (s_delay s1 =? 0) eqn:Ed; cbn [negb] in *.
  - destruct (s_cnt s1 =? 0) eqn:Ec.
    + cbn [fst snd] in *. exists g, d. split; [reflexivity|]. split; [now apply Held|].
      rewrite T, <- (after_set t msgs m n s ND En G), <- E1. subst s1.
      clear - G ND. unfold zset, zget in *. induction t as [|[k s'] r IH]; [discriminate|].
      cbn [after_msgs map dset fst snd]. cbn [dget] in G. destruct (n =? k) eqn:X.
      * injection G as ->. apply Z.eqb_eq in X. now subst k.
      * f_equal. inversion ND; subst. now apply IH.
    + destruct (save_message can s1 d m) as [[s2 d2] r]. cbn [fst snd] in *. subst r s2.
      eexists _, d2. split; [reflexivity|]. split; [now apply Held|]. apply Tab.
  - cbn [fst snd] in *. eexists _, d. split; [reflexivity|]. split; [now apply Held|]. rewrite E1. apply Tab.
Qed.

Lemma decode_all_app can mode st g d l m :
  decode_all can mode st g d (l ++ [m]) =
  (let '(a, st, g, d) := decode_all can mode st g d l in
   let '(x, st, g, d) := decode_grab can mode st g d m in (a ++ [x], st, g, d)).
Proof.
  revert st g d. induction l as [|c r IH]; intros st g d.
  - cbn [app decode_all]. destruct (decode_grab can mode st g d m) as [[[x s1] g1] d1]. reflexivity.
  - cbn [app decode_all]. destruct (decode_grab can mode st g d c) as [[[x s1] g1] d1]. rewrite IH.
    destruct (decode_all can mode s1 g1 d1 r) as [[[a s2] g2] d2].
    destruct (decode_grab can mode s2 g2 d2 m) as [[[y s3] g3] d3]. reflexivity.
Qed.

Lemma run_ok can st d0 mode msgs : let t := table grabber_init mode in
  t <> [] -> NoDup (map fst t) -> NoDup (names t) -> Forall (fun ns => fresh (snd ns)) t ->
  (forall n s, zget t n = Some s -> can (s_fname s) = true) -> Forall bytes_ok msgs ->
  exists l st' g' d', decode_all can (Some mode) st grabber_init d0 msgs = (l, st', g', d') /\
    held can t d0 d' msgs /\ table g' mode = after_msgs t msgs /\
    forall g d, decode_all can None st g d msgs = (l, st', g, d).
Proof.
  intros t NE ND NN Fr Hc. induction msgs as [|m msgs IH] using rev_ind; intros B.
  - exists [], st, grabber_init, d0. split; [reflexivity|]. split.
    + split; [exact Hc|]. split; [|reflexivity]. intros n s G. unfold file_after, keep. cbn [with_number filter].
      now rewrite skipn_nil, firstn_nil.
    + split; [|reflexivity]. change (table grabber_init mode) with t. clear - Fr.
      induction Fr as [|[k s] r F Fr IH]; [reflexivity|]. cbn [after_msgs map fst snd]. f_equal; [|exact IH].
      f_equal. destruct F as (C & D & Fp). unfold entry_after, keep. cbn [with_number filter snd] in *.
      rewrite skipn_nil, firstn_nil. change (zlen (@nil (list Z))) with 0. rewrite !Z.sub_0_r, Z.max_r by exact D.
      rewrite <- Fp. now destruct s.
  - apply Forall_app in B as [B Bm]. inversion Bm as [|? ? Bm1 _]; subst.
    destruct (IH B) as (l & st1 & g1 & d1 & E & H & T & O).
    destruct (save_step can g1 d0 d1 msgs m mode t NE eq_refl ND NN Fr H T) as (g2 & d2 & S & H2 & T2).
    rewrite decode_all_app, E. cbn [decode_grab]. rewrite (mnum_number m Bm1), S.
    destruct (decode st1 m) as [x st2] eqn:Ex.
    exists (l ++ [x]), st2, g2, d2. split; [reflexivity|]. split; [exact H2|]. split; [exact T2|].
    intros g d. rewrite decode_all_app, O. cbn [decode_grab]. now rewrite Ex.
Qed.

(** ** The tables of the program and the plan *)
Definition MODES : list string := ["EPH"; "BASE"; "MSM7"; "MSM5"].
Lemma mode_cases mode : In mode MODES \/ (table grabber_init mode = [] /\ forall n, plan mode n = None).
Proof.
  destruct (in_dec string_dec mode MODES) as [I|N]; [now left|right].
  assert (X : forall m, In m MODES -> String.eqb mode m = false).
  { intros m I. apply String.eqb_neq. intros ->. exact (N I). }
  unfold table, plan. rewrite (X "EPH"), (X "BASE"), (X "MSM7"), (X "MSM5") by (unfold MODES, In; auto).
  split; reflexivity.
Qed.
Lemma fresh_checked l : forallb (fun ns : Z * scenario => (0 <? s_cnt (snd ns)) && (0 <=? s_delay (snd ns)) &&
  match s_fp (snd ns) with NoFile => true | _ => false end) l = true -> Forall (fun ns => fresh (snd ns)) l.
Proof.
  intros H. apply Forall_forall. intros ns I. rewrite forallb_forall in H. specialize (H ns I).
  apply andb_true_iff in H as [H F]. apply andb_true_iff in H as [C D].
  apply Z.ltb_lt in C. apply Z.leb_le in D. unfold fresh. destruct (s_fp (snd ns)); try discriminate. auto.
Qed.
Lemma tables_ok mode : In mode MODES -> let t := table grabber_init mode in
  t <> [] /\ NoDup (map fst t) /\ NoDup (names t) /\ Forall (fun ns => fresh (snd ns)) t.
Proof.
  intros I t. repeat (destruct I as [<-|I]; [subst t; cbn; (split; [discriminate|]; split; [|split; [|apply fresh_checked; reflexivity]]);
    repeat (constructor; [cbn; intuition discriminate|]); constructor|]). destruct I.
Qed.
Lemma table_plan mode n : match zget (table grabber_init mode) n with
  | Some s => plan mode n = Some (Z.to_nat (s_delay s), Z.to_nat (s_cnt s)) /\ s_fname s = file_of n
  | None => plan mode n = None
  end.
Proof.
  destruct (mode_cases mode) as [I|[-> P]]; [|exact (P n)].
  destruct I as [<-|[<-|[<-|[<-|[]]]]]; unfold zget, plan; cbn -[Z.eqb file_of Z.to_nat];
    repeat (destruct (n =? _) eqn:E; [apply Z.eqb_eq in E; subst n; split; reflexivity|clear E]); reflexivity.
Qed.
Lemma In_names mode x : In x (names (table grabber_init mode)) -> exists n, plan mode n <> None /\ x = file_of n.
Proof.
  intros I. apply in_map_iff in I as ([n s] & <- & I). cbn [snd]. exists n.
  destruct (mode_cases mode) as [M|[E _]]; [|rewrite E in I; destruct I].
  destruct (tables_ok mode M) as (_ & ND & _). pose proof (In_dget Z.eqb z_eqb_spec _ _ _ ND I) as G.
  pose proof (table_plan mode n) as P. unfold zget in P. rewrite G in P. destruct P as [P ->]. split; [congruence|reflexivity].
Qed.
