(** * PropertiesPatterns: C54 for directories whatever characters their names have. *)
From Coq Require Import Ascii Lia.
From Verif Require Import PyBase PyDict MainModel SourcesModel SourcesSpec PropertiesSources PatternsSpec.
Local Open Scope string_scope.
Local Open Scope list_scope.
Local Open Scope Z_scope.

Lemma until_spec : forall p s q, until_bracket p = Some (s, q) <-> p = s ++ closing :: q /\ ~ In closing s.
Proof.
  induction p as [|c p IH]; intros s q; cbn [until_bracket].
  - split; [discriminate|]. intros (E & _). destruct s; discriminate E.
  - change (chr 93) with closing. destruct (Ascii.eqb_spec c closing) as [->|N].
    + split.
      * intros E. injection E as <- <-. split; [reflexivity|intros []].
      * intros (E & NI). destruct s as [|x s]; [injection E as <-; reflexivity|]. injection E as <- _. elim NI. now left.
    + destruct (until_bracket p) as [(s', q')|] eqn:U.
      * destruct (proj1 (IH s' q') eq_refl) as (E & NI). split.
        -- intros H. injection H as <- <-. split; [now rewrite E|]. intros [H|H]; [congruence|contradiction].
        -- intros (H & NI'). destruct s as [|x s]; [injection H as H _; contradiction|]. injection H as <- H.
           assert (X : Some (s', q') = Some (s, q)) by (apply IH; split; [exact H|intros X; apply NI'; now right]). congruence.
      * split; [discriminate|]. intros (H & NI'). destruct s as [|x s]; [injection H as H _; contradiction|]. injection H as <- H.
        assert (X : None = Some (s, q)) by (apply IH; split; [exact H|intros X; apply NI'; now right]). discriminate X.
Qed.
Definition after_sign (neg : bool) (p : list ascii) : option (bool * list ascii * list ascii) :=
  match p with
  | c :: r => if Ascii.eqb c (chr 93) then match until_bracket r with Some (s, q) => Some (neg, c :: s, q) | None => None end
              else match until_bracket p with Some (s, q) => Some (neg, s, q) | None => None end
  | [] => None
  end.
Lemma after_sign_same neg neg' p s q : after_sign neg p = Some (neg', s, q) -> neg' = neg.
Proof. unfold after_sign. destruct p as [|c r]; [discriminate|]. destruct (Ascii.eqb _ _); [destruct (until_bracket r) as [(?, ?)|]|destruct (until_bracket (c :: r)) as [(?, ?)|]]; congruence. Qed.
Lemma set_spec p neg s q : set_of p = Some (neg, s, q) <-> bracket p neg s q.
Proof.
  assert (B : forall p neg s q, after_sign neg p = Some (neg, s, q) <-> exists a r, s = a :: r /\ ~ In closing r /\ p = s ++ closing :: q).
  { clear. intros p neg s q. unfold after_sign. destruct p as [|c r].
    - split; [discriminate|]. intros (a & r & -> & _ & E). discriminate E.
    - change (chr 93) with closing. destruct (Ascii.eqb_spec c closing) as [->|N].
      + destruct (until_bracket r) as [(s', q')|] eqn:U.
        * apply until_spec in U. destruct U as (-> & NI). split.
          -- intros E. injection E as <- <-. exists closing, s'. auto.
          -- intros (a & r & -> & NI' & E). cbn [app] in E. injection E as <- E.
             pose proof (proj2 (until_spec (r ++ closing :: q) r q) (conj eq_refl NI')) as U.
             rewrite <- E in U. pose proof (proj2 (until_spec (s' ++ closing :: q') s' q') (conj eq_refl NI)) as U'. congruence.
        * split; [discriminate|]. intros (a & r' & -> & NI' & E). cbn [app] in E. injection E as <- E.
          rewrite (proj2 (until_spec r r' q) (conj E NI')) in U. discriminate U.
      + destruct (until_bracket (c :: r)) as [(s', q')|] eqn:U.
        * apply until_spec in U. destruct U as (E & NI). split.
          -- intros H. injection H as <- <-. destruct s' as [|a s']; [injection E as E _; contradiction|]. exists a, s'. split; [reflexivity|]. split; [|exact E].
             intros I. apply NI. now right.
          -- intros (a & r' & -> & NI' & E'). assert (a = c) as -> by (cbn [app] in E'; congruence).
             pose proof (proj2 (until_spec (c :: r) (c :: r') q)) as U. rewrite (proj2 (until_spec (c :: r) s' q') (conj E NI)) in U.
             assert (Some (s', q') = Some (c :: r', q)) by (apply U; split; [exact E'|intros [X|X]; [congruence|contradiction]]). congruence.
        * split; [discriminate|]. intros (a & r' & -> & NI' & E'). assert (a = c) as -> by (cbn [app] in E'; congruence).
          rewrite (proj2 (until_spec (c :: r) (c :: r') q)) in U; [discriminate U|]. split; [exact E'|intros [X|X]; [congruence|contradiction]]. }
  unfold bracket. destruct p as [|c p].
  - split; [discriminate|]. intros (a & r & -> & _ & E & _). destruct neg; discriminate E.
  - assert (SO : set_of (c :: p) = if Ascii.eqb c exclamation then after_sign true p else after_sign false (c :: p)).
    { unfold set_of. change (chr 33) with exclamation. now destruct (Ascii.eqb c exclamation). }
    rewrite SO. clear SO. destruct (Ascii.eqb_spec c exclamation) as [->|N].
    + split.
      * intros E. pose proof (after_sign_same _ _ _ _ _ E) as ->. apply B in E. destruct E as (a & r & -> & NI & ->). exists a, r. repeat split; [exact NI|discriminate].
      * intros (a & r & -> & NI & E & F). destruct neg; cbn [app] in E.
        -- injection E as E. apply B. exists a, r. auto.
        -- elim (F eq_refl). congruence.
    + split.
      * intros E. pose proof (after_sign_same _ _ _ _ _ E) as ->. apply B in E. destruct E as (a & r & -> & NI & E). exists a, r. repeat split; [exact NI|exact E|]. intros _. cbn [app] in E. congruence.
      * intros (a & r & -> & NI & E & F). destruct neg; cbn [app] in E; [congruence|]. apply B. exists a, r. auto.
Qed.
Lemma in_set_spec : forall k s x, (length s <= k)%nat -> in_set k s x = true <-> among s x.
Proof.
  induction k as [|k IH]; intros s x L.
  - destruct s; [|cbn in L; lia]. split; [discriminate|]. inversion 1.
  - cbn [in_set]. destruct s as [|a s]; [split; [discriminate|inversion 1]|].
    assert (P : (forall b t, s <> hyphen :: b :: t) -> Ascii.eqb a x || in_set k s x = true <-> among (a :: s) x).
    { intros NH. rewrite orb_true_iff, Ascii.eqb_eq, IH by (cbn [length] in L; lia). split.
      - intros [->|H]; [now apply among_this|now apply among_next].
      - intros H. inversion H; subst; try (exfalso; eapply NH; reflexivity); auto. }
    destruct s as [|h [|b r]].
    + apply P. intros b t; discriminate.
    + apply P. intros b t; discriminate.
    + change (chr 45) with hyphen. destruct (Ascii.eqb_spec h hyphen) as [->|N]; [|apply P; intros b' t E; congruence].
      rewrite orb_true_iff, andb_true_iff, !Z.leb_le, IH by (cbn [length] in L; lia). split.
      * intros [H|H]; [now apply among_range|now apply among_behind].
      * intros H. inversion H as [a0 b0 r0 x0 A|a0 b0 r0 x0 A|x0 r0 A|a0 r0 x0 A A']; subst; [now left|now right| |].
        -- elim (A b r eq_refl).
        -- elim (A b r eq_refl).
Qed.
Lemma bracket_shorter p neg s q : bracket p neg s q -> (length q < length p)%nat.
Proof. intros (a & r & -> & _ & -> & _). destruct neg; cbn [app length]; rewrite !app_length; cbn [length]; lia. Qed.

Lemma fnmatch_spec : forall k p n, (length p + length n < k)%nat -> fnmatch k p n = true <-> fits p n.
Proof.
  induction k as [|k IH]; intros p n L; [lia|]. cbn [fnmatch]. destruct p as [|c p].
  - destruct n; split; try discriminate; try constructor; try reflexivity; inversion 1.
  - change (chr 42) with star. change (chr 63) with question. change (chr 91) with opening. cbn [length] in L.
    destruct (Ascii.eqb_spec c star) as [->|N1].
    + rewrite orb_true_iff, IH by lia. split.
      * intros [H|H]; [exact (fits_star p [] n H)|]. destruct n as [|x n]; [discriminate H|]. apply IH in H; [|cbn [length] in *; lia].
        inversion H as [|p0 a n0 F| | |c p0 n0 A1 A2 A3 F]; subst; [|congruence]. exact (fits_star p (x :: a) n0 F).
      * intros H. inversion H; subst; try congruence. destruct a as [|x a]; [now left|]. right. cbn [app]. apply IH; [cbn [length app] in *; lia|]. now constructor.
    + destruct n as [|x n]; [split; [discriminate|]; inversion 1; congruence|]. cbn [length] in L.
      destruct (Ascii.eqb_spec c question) as [->|N2].
      * rewrite IH by lia. split; [now constructor|]. intros H. inversion H; subst; try congruence; assumption.
      * destruct (Ascii.eqb_spec c opening) as [->|N3].
        -- destruct (set_of p) as [((neg, s), q)|] eqn:SO.
           ++ apply set_spec in SO. pose proof (bracket_shorter _ _ _ _ SO) as LQ.
              rewrite andb_true_iff, IH by lia. pose proof (in_set_spec (length s) s x (le_n _)) as IS. split.
              ** intros (X & F). apply (fits_set p neg s q); [exact SO| |exact F]. destruct neg, (in_set (length s) s x); cbn in X; try discriminate X; first [now apply IS|intros A; apply IS in A; discriminate A].
              ** intros H. inversion H as [| | |p0 neg' s' q' x0 n0 BR AM F|c p0 n0 A1 A2 A3 F]; subst; [|elim (A3 eq_refl neg s q SO)].
                 apply set_spec in SO, BR. assert (neg' = neg /\ s' = s /\ q' = q) as (-> & -> & ->) by (split; [congruence|split; congruence]).
                 split; [|exact F]. destruct neg, (in_set (length s) s x); cbn; try reflexivity; exfalso; [apply AM; now apply IS|apply IS in AM; discriminate AM].
           ++ rewrite andb_true_iff, IH, Ascii.eqb_eq by lia. split.
              ** intros (<- & F). apply fits_char; auto. intros _ neg s q B. apply set_spec in B. congruence.
              ** intros H. inversion H as [| | |p0 neg' s' q' x0 n0 BR AM F|c p0 n0 A1 A2 A3 F]; subst; [|auto]. apply set_spec in BR. congruence.
        -- rewrite andb_true_iff, IH, Ascii.eqb_eq by lia. split.
           ++ intros (<- & F). apply fits_char; auto; contradiction.
           ++ intros H. inversion H; subst; try congruence. auto.
Qed.
Lemma matches_fits c n : matches c n = true <-> fits (chars c) (chars n).
Proof. unfold matches. apply fnmatch_spec. lia. Qed.
Lemma magic_plain c : has_magic c = false <-> plain c.
Proof.
  split; [|apply has_magic_plain]. intros H x I. assert (M : magic_char x = false).
  { destruct (magic_char x) eqn:E; [|reflexivity]. unfold has_magic in H. rewrite (proj2 (existsb_exists _ _)) in H; [discriminate|]. exists x. auto. }
  unfold magic_char in M. rewrite !orb_false_iff, !Ascii.eqb_neq in M. tauto.
Qed.

Lemma hidden_iff c : starts_dot c = true <-> ~ visible c.
Proof. pose proof (starts_dot_iff c) as H. destruct (starts_dot c); cbn [negb] in H; intuition congruence. Qed.

(** One more component. *)
Definition one (d : disk) (dironly : bool) (q : path) (c n : string) : Prop :=
  if has_magic c then exists names, d q = KDir names /\ In n names /\ fits (chars c) (chars n) /\ (visible n \/ ~ visible c) /\
                        (dironly = true -> exists inner, d (q ++ [n]) = KDir inner)
  else n = c /\ d (q ++ [c]) <> KNone.
Lemma one_spec d dironly q c n :
  In n (if has_magic c then glob1 d dironly q c else glob0 d q c) <-> one d dironly q c n.
Proof.
  unfold one. destruct (has_magic c).
  - unfold glob1. rewrite filter_In, matches_fits.
    assert (A : forall names, In n (if starts_dot c then names else filter (fun n => negb (starts_dot n)) names) <-> In n names /\ (visible n \/ ~ visible c)).
    { intros names. destruct (starts_dot c) eqn:SD.
      - apply hidden_iff in SD. tauto.
      - rewrite filter_In, starts_dot_iff. assert (V : visible c) by (apply starts_dot_iff; now rewrite SD). tauto. }
    rewrite A. clear A.
    assert (B : In n (if dironly then filter (fun n => isdir d (q ++ [n])) (match d q with KDir ns => ns | _ => [] end) else match d q with KDir ns => ns | _ => [] end) <->
      exists names, d q = KDir names /\ In n names /\ (dironly = true -> exists inner, d (q ++ [n]) = KDir inner)).
    { destruct dironly.
      - rewrite filter_In. unfold isdir. split.
        + intros (I & D). destruct (d q) as [| |names]; [destruct I|destruct I|]. exists names. split; [reflexivity|]. split; [exact I|]. intros _. destruct (d (q ++ [n])) as [| |inner]; try discriminate D. now exists inner.
        + intros (names & -> & I & D). destruct (D eq_refl) as (inner & ->). auto.
      - split.
        + intros I. destruct (d q) as [| |names]; [destruct I|destruct I|]. exists names. split; [reflexivity|]. split; [exact I|discriminate].
        + intros (names & -> & I & _). exact I. }
    rewrite B. clear B. split.
    + intros (((names & D & I & X) & V) & F). exists names. auto.
    + intros (names & D & I & F & V & X). split; [split; [exists names; auto|exact V]|exact F].
  - unfold glob0, lexists. destruct (d (q ++ [c])) eqn:E; cbn; split; try tauto; intros H; try (destruct H as [<-|[]]); try (destruct H as (-> & _)); try (split; congruence); now left.
Qed.
Fixpoint reach (d : disk) (dironly : bool) (q : path) (pat : list string) (p : path) : Prop :=
  match pat with
  | [] => p = q
  | c :: r => exists n, one d (match r with [] => dironly | _ => true end) q c n /\ reach d dironly (q ++ [n]) r p
  end.
Lemma reach_snoc d dironly c : forall a q p, reach d dironly q (a ++ [c]) p <-> exists r n, reach d true q a r /\ one d dironly r c n /\ p = r ++ [n].
Proof.
  induction a as [|x a IH]; intros q p; cbn [app reach].
  - split.
    + intros (n & O & ->). exists q, n. auto.
    + intros (r & n & -> & O & ->). exists n. auto.
  - assert (M : forall b : bool, match a ++ [c] with [] => dironly | _ => b end = b) by (destruct a; reflexivity). rewrite M.
    assert (M' : match a with [] => true | _ => true end = true) by (destruct a; reflexivity). rewrite M'. split.
    + intros (n & O & R). apply IH in R. destruct R as (r & k & R & O' & ->). exists r, k. split; [exists n; auto|auto].
    + intros (r & k & (n & O & R) & O' & ->). exists n. split; [exact O|]. apply IH. exists r, k. auto.
Qed.
Lemma finds_reach d : forall pat q p, finds d q pat p <-> reach d false q pat p.
Proof.
  induction pat as [|c pat IH]; intros q p; cbn [reach].
  - split; [inversion 1; reflexivity|intros ->; constructor].
  - split.
    + intros H. inversion H as [|q0 c0 names n r p0 NP D I F V X R|q0 c0 r p0 P E R]; subst.
      * exists n. split; [|now apply IH]. unfold one. destruct (has_magic c) eqn:M; [|elim NP; now apply magic_plain].
        exists names. repeat (split; [assumption|]). intros Z. apply X. intros ->. discriminate Z.
      * exists c. split; [|now apply IH]. unfold one. rewrite (proj2 (magic_plain c) P). auto.
    + intros (n & O & R). apply IH in R. unfold one in O. destruct (has_magic c) eqn:M.
      * destruct O as (names & D & I & F & V & X). apply (by_pattern d q c names n); try assumption.
        -- intros P. apply magic_plain in P. congruence.
        -- intros N. apply X. destruct pat; [now elim N|reflexivity].
      * destruct O as (-> & E). apply by_name; try assumption. now apply magic_plain.
Qed.
Lemma iglob_reach d : forall post pre dironly, Forall plain pre -> (match post with c :: _ => has_magic c = true | [] => False end) ->
  forall p, In p (iglob d dironly (rev (pre ++ post))) <-> reach d dironly pre post p.
Proof.
  induction post as [|c post IH] using rev_ind; intros pre dironly P H p; [destruct H|].
  rewrite app_assoc, rev_app_distr. cbn [rev app iglob]. rewrite reach_snoc, in_flat_map.
  assert (D : forall q, In q (if existsb has_magic (rev (pre ++ post)) then iglob d true (rev (pre ++ post)) else [rev (rev (pre ++ post))]) <-> reach d true pre post q).
  { intros q. destruct post as [|x post].
    - rewrite app_nil_r, (plain_path pre P), rev_involutive. cbn. intuition congruence.
    - assert (M : existsb has_magic (rev (pre ++ x :: post)) = true).
      { apply existsb_exists. exists x. split; [rewrite <- in_rev; apply in_or_app; right; now left|exact H]. }
      rewrite M. apply IH; [exact P|exact H]. }
  split.
  - intros (q & I & E). apply in_map_iff in E. destruct E as (n & <- & E). apply one_spec in E. exists q, n. split; [now apply D|auto].
  - intros (q & n & R & O & ->). exists q. split; [now apply D|]. apply in_map_iff. exists n. split; [reflexivity|]. now apply one_spec.
Qed.

(** C54 for every directory: what is shown are the files found by going along the name of the
    directory, read as a pattern from its first component with a wildcard on, and then "*.ext". *)
Theorem C54_any_directory : forall d pre post ext, Forall plain pre -> match post with c :: _ => ~ plain c | [] => True end ->
  forall p, In p (shown d (pre ++ post) ext) <-> finds d pre (post ++ [("*." ++ ext)%string]) p.
Proof.
  intros d pre post ext P H p. unfold shown. change (("*." ++ ext)%string :: rev (pre ++ post)) with (rev [("*." ++ ext)%string] ++ rev (pre ++ post)).
  rewrite <- rev_app_distr, <- app_assoc, finds_reach. apply iglob_reach; [exact P|].
  destruct post as [|c post]; [reflexivity|]. cbn [app]. destruct (has_magic c) eqn:M; [reflexivity|]. apply magic_plain in M. contradiction.
Qed.
Print Assumptions C54_any_directory.
(** Every path is of this kind. *)
Lemma split_plain (dir : path) : exists pre post, dir = pre ++ post /\ Forall plain pre /\ match post with c :: _ => ~ plain c | [] => True end.
Proof.
  induction dir as [|c dir (pre & post & -> & P & H)]; [exists [], []; repeat split; constructor|].
  destruct (has_magic c) eqn:M.
  - exists [], (c :: pre ++ post). split; [reflexivity|]. split; [constructor|]. intros N. apply magic_plain in N. congruence.
  - exists (c :: pre), post. split; [reflexivity|]. split; [constructor; [now apply magic_plain|exact P]|exact H].
Qed.

(** Whatever the directory is called, everything that is shown is a visible entry, with the
    extension, of some directory at the same depth. *)
Theorem C54_shown_entries : forall d dir ext p, plain ext -> In p (shown d dir ext) ->
  exists q names n, p = q ++ [n] /\ length q = length dir /\ d q = KDir names /\ In n names /\ has_extension ext n /\ visible n.
Proof.
  intros d dir ext p PE I. destruct (split_plain dir) as (pre & post & -> & P & H). apply (C54_any_directory d pre post ext P H) in I.
  apply finds_reach, reach_snoc in I. destruct I as (q & n & R & O & ->). unfold one in O. change (has_magic ("*." ++ ext)%string) with true in O. cbv iota in O.
  destruct O as (names & D & I & F & V & _). exists q, names, n. split; [reflexivity|]. split; [|split; [exact D|split; [exact I|]]].
  - rewrite app_length. clear - R. revert pre R. induction post as [|c post IH]; intros pre R; cbn [reach] in R; [subst; cbn; lia|].
    destruct R as (k & _ & R). apply IH in R. rewrite app_length in R. cbn [length] in *. lia.
  - apply matches_fits in F. split; [now apply (matches_extension ext n PE)|]. destruct V as [V|V]; [exact V|]. elim V. intros r. discriminate.
Qed.
Print Assumptions C54_shown_entries.

(** A directory without "[" in its path offers its own files, possibly among others: "*" and "?"
    fit themselves.  (Its components must be entries of each other.) *)
Lemma fits_itself : forall c, ~ In opening c -> fits c c.
Proof.
  induction c as [|x c IH]; intros N; [constructor|]. assert (F : fits c c) by (apply IH; intros I; apply N; now right).
  destruct (ascii_dec x star) as [->|N1]; [exact (fits_star c [star] c F)|]. destruct (ascii_dec x question) as [->|N2]; [now constructor|].
  apply fits_char; auto. intros ->. elim N. now left.
Qed.
Definition reachable (d : disk) (dir : path) : Prop :=
  forall a c b, dir = a ++ c :: b -> exists names, d a = KDir names /\ In c names /\ exists inner, d (a ++ [c]) = KDir inner.
Theorem C54_own_files : forall d dir ext names n, plain ext -> reachable d dir -> Forall (fun c => ~ In opening (chars c)) dir ->
  d dir = KDir names -> In n names -> has_extension ext n -> visible n -> In (dir ++ [n]) (shown d dir ext).
Proof.
  intros d dir ext names n PE RE NB D I X V. destruct (split_plain dir) as (pre & post & -> & P & H). apply (C54_any_directory d pre post ext P H).
  apply finds_reach, reach_snoc. exists (pre ++ post), n. split; [|split; [|reflexivity]].
  - clear - RE NB. apply Forall_app in NB. destruct NB as (_ & NB). revert pre RE NB. induction post as [|c post IH]; intros pre RE NB; cbn [reach]; [now rewrite app_nil_r|].
    exists c. inversion NB; subst. split.
    + destruct (RE pre c post eq_refl) as (ns & A & B & inner & C). unfold one. destruct (has_magic c).
      * exists ns. split; [exact A|]. split; [exact B|]. split; [now apply fits_itself|]. split; [|intros _; now exists inner].
        destruct (starts_dot c) eqn:SD; [right; now apply hidden_iff|left; apply starts_dot_iff; now rewrite SD].
      * split; [reflexivity|congruence].
    + replace (pre ++ c :: post) with ((pre ++ [c]) ++ post) in * by (rewrite <- app_assoc; reflexivity). apply IH; assumption.
  - unfold one. change (has_magic ("*." ++ ext)%string) with true. cbv iota. exists names. split; [exact D|]. split; [exact I|].
    split; [apply matches_fits; now apply matches_extension|]. split; [now left|discriminate].
Qed.
Print Assumptions C54_own_files.

(** Nothing is offered twice, so that every number of the list is one file of its own. *)
Definition distinct_names (d : disk) : Prop := forall p names, d p = KDir names -> NoDup names.
Lemma NoDup_join {A} (l r : list A) : NoDup l /\ NoDup r /\ (forall x, In x l -> In x r -> False) -> NoDup (l ++ r).
Proof.
  intros (L & R & X). induction L as [|a l NI L IH]; [exact R|]. cbn [app]. constructor.
  - rewrite in_app_iff. intros [I|I]; [contradiction|]. apply (X a); [now left|exact I].
  - apply IH. intros x I. apply X. now right.
Qed.
Lemma NoDup_entries (f : path -> list string) : forall dirs, NoDup dirs -> (forall dir, In dir dirs -> NoDup (f dir)) ->
  NoDup (flat_map (fun dir => map (fun n => dir ++ [n]) (f dir)) dirs).
Proof.
  induction dirs as [|dir r IH]; intros N F; [constructor|]. inversion N as [|? ? NI N']; subst. cbn [flat_map].
  apply NoDup_join. split; [|split].
  - apply FinFun.Injective_map_NoDup; [|apply F; now left]. intros x y E. apply app_inj_tail in E. apply E.
  - apply IH; [exact N'|]. intros dir' I. apply F. now right.
  - intros p A B. apply in_map_iff in A. destruct A as (n & <- & _). apply in_flat_map in B. destruct B as (dir' & I & B).
    apply in_map_iff in B. destruct B as (n' & E & _). apply app_inj_tail in E. destruct E as (-> & _). contradiction.
Qed.
Lemma iglob_once d : distinct_names d -> forall rp dironly, NoDup (iglob d dironly rp).
Proof.
  intros D. induction rp as [|base dirname IH]; intros dironly; cbn [iglob]; [repeat constructor; intros []|].
  apply (NoDup_entries (fun dir => if has_magic base then glob1 d dironly dir base else glob0 d dir base)).
  - destruct (existsb has_magic dirname); [apply IH|]. repeat constructor. intros [].
  - intros dir _. destruct (has_magic base).
    + unfold glob1. destruct (d dir) as [| |names] eqn:E.
      * destruct dironly, (starts_dot base); constructor.
      * destruct dironly, (starts_dot base); constructor.
      * apply D in E. destruct dironly, (starts_dot base); repeat apply NoDup_filter; exact E.
    + unfold glob0. destruct (lexists d (dir ++ [base])); repeat constructor. intros [].
Qed.
Theorem C54_once : forall d dir ext, distinct_names d -> NoDup (shown d dir ext).
Proof. intros d dir ext D. apply iglob_once. exact D. Qed.
Print Assumptions C54_once.

(** Examples: "d?" offers its own files and those of "dx"; "d[1]" those of "d1" only. *)
Definition question_disk : disk := fun p =>
  match p with
  | [] => KDir ["d?"; "dx"; "d[1]"; "d1"]
  | ["d?"] => KDir ["a.rtcm3"; ".b.rtcm3"] | ["dx"] => KDir ["c.rtcm3"; "c.txt"] | ["d[1]"] => KDir ["e.rtcm3"] | ["d1"] => KDir ["f.rtcm3"]
  | [_; _] => KFile
  | _ => KNone
  end.
Example C54_once_nonvacuous : distinct_names question_disk.
Proof.
  assert (N : forall l : list string, forallb (fun x => (count_occ string_dec l x <=? 1)%nat) l = true -> NoDup l).
  { intros l H. apply (NoDup_count_occ string_dec). intros x. rewrite forallb_forall in H.
    destruct (in_dec string_dec x l) as [I|I]; [apply Nat.leb_le, H, I|]. apply (count_occ_not_In string_dec) in I. rewrite I. auto. }
  intros p names E. apply N. unfold question_disk in E.
  repeat match type of E with match ?s with _ => _ end = _ => destruct s; try discriminate E end; injection E as <-; vm_compute; reflexivity.
Qed.
Example C54_patterns_nonvacuous :
  shown question_disk ["d?"] "rtcm3" = [["d?"; "a.rtcm3"]; ["dx"; "c.rtcm3"]; ["d1"; "f.rtcm3"]] /\
  shown question_disk ["d[1]"] "rtcm3" = [["d1"; "f.rtcm3"]] /\
  ~ plain "d?" /\ plain "rtcm3" /\ reachable question_disk ["d?"] /\ ~ In opening (chars "d?") /\
  fits (chars "d[!a-c]*") (chars "dxyz") /\ ~ fits (chars "d[!a-c]*") (chars "db").
Proof.
  split; [vm_compute; reflexivity|]. split; [vm_compute; reflexivity|].
  split; [intros P; apply magic_plain in P; discriminate P|]. split; [now apply magic_plain|].
  split. { intros a c b E. destruct a as [|x a]; [|destruct a; discriminate E]. injection E as <- <-. eexists. split; [reflexivity|]. split; [now left|]. eexists. reflexivity. }
  split; [cbn; intuition discriminate|].
  split; [apply (matches_fits "d[!a-c]*" "dxyz"); vm_compute; reflexivity|]. intros F. apply (matches_fits "d[!a-c]*" "db") in F. vm_compute in F. discriminate F.
Qed.
