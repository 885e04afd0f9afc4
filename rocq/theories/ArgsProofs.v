From Coq Require Import Ascii.
From Verif Require Import PyBase PyDict PyVal ArgsModel ArgsSpec.
Local Open Scope string_scope.
Local Open Scope list_scope.

Definition act (w : setting) : action := match w with Format => AFormat | Ini => AIni | Ext => AExt end.
Ltac here := cbn; solve [repeat (first [left; reflexivity|right])].
Ltac steps k := first [exfalso; lia|destruct k as [|k]; [here|steps k]].
Ltac inj I := first [injection I as <- _|injection I as <-].
Ltac incases H := cbn [In spellings spellings_eq letter starts starts_eq] in H; repeat (destruct H as [H|H]; [subst|]); try contradiction H.

Lemma spelled_word : forall w s, In s (spellings w) -> exists o, parse_optional s = Some (TOpt {| f_action := Some (act w); f_option := o; f_sep := None; f_explicit := None |}) /\ String.eqb s "--" = false.
Proof. intros w s I. destruct w; incases I; eexists; split; vm_compute; reflexivity. Qed.
Lemma spelled_equals : forall w s v, In s (spellings_eq w) -> exists o, parse_optional (s ++ "=" ++ v)%string = Some (TOpt {| f_action := Some (act w); f_option := o; f_sep := Some true; f_explicit := Some v |})
   /\ String.eqb (s ++ "=" ++ v)%string "--" = false.
Proof. intros w s v I. destruct w; incases I; eexists; split; cbn; reflexivity. Qed.
Lemma spelled_glued : forall w s c r, In s (letter w) -> c <> equals -> exists o, parse_optional (s ++ String c r)%string = Some (TOpt {| f_action := Some (act w); f_option := o; f_sep := Some false; f_explicit := Some (String c r) |})
   /\ String.eqb (s ++ String c r)%string "--" = false.
Proof.
  intros w s c r I N. apply Ascii.eqb_neq in N. destruct w; incases I; eexists; (split; [|reflexivity]); unfold parse_optional;
  cbn [append partition_eq]; rewrite N; destruct (partition_eq r) as [[a b]|]; cbn; reflexivity.
Qed.

Lemma prefix_in : forall p n, String.prefix p n = true -> exists k, (k <= String.length n)%nat /\ p = String.substring 0 k n.
Proof.
  induction p as [|c p IH]; intros n H; [exists 0%nat; split; [lia|destruct n; reflexivity]|].
  destruct n as [|d n]; [discriminate|]. cbn in H. destruct (ascii_dec c d) as [->|]; [|discriminate].
  destruct (IH n H) as (k & K & ->). exists (S k). split; [cbn; lia|reflexivity].
Qed.
Lemma partition_spec : forall s a b, partition_eq s = Some (a, b) -> s = (a ++ "=" ++ b)%string.
Proof.
  induction s as [|c s IH]; intros a b H; [discriminate|]. cbn [partition_eq] in H. destruct (Ascii.eqb_spec c equals) as [->|N].
  - inversion H; subst. reflexivity.
  - destruct (partition_eq s) as [[x y]|]; [|discriminate]. inversion H; subst. cbn. f_equal. apply IH; reflexivity.
Qed.
Lemma partition_none : forall a b, partition_eq (a ++ "=" ++ b)%string <> None.
Proof. induction a as [|c a IH]; intros b H; [cbv in H; discriminate H|]. cbn [partition_eq append] in H. destruct (Ascii.eqb c equals); [discriminate|]. specialize (IH b). cbn [append] in IH. destruct (partition_eq (a ++ _)%string) as [[]|]; [discriminate|congruence]. Qed.

Lemma prefixes : forall n a p, In (n, a) OPTIONS -> String.prefix p n = true ->
  In (p, a) [("", a); ("-", a); ("--", a); ("-h", AHelp); ("--h", AHelp); ("--he", AHelp); ("--hel", AHelp); ("--help", AHelp);
    ("-o", AFormat); ("--o", AFormat); ("--ou", AFormat); ("--out", AFormat); ("--outp", AFormat); ("--outpu", AFormat); ("--output", AFormat);
    ("-i", AIni); ("--i", AIni); ("--in", AIni); ("--ini", AIni);
    ("-v", AVersion); ("--v", AVersion); ("--ve", AVersion); ("--ver", AVersion); ("--vers", AVersion); ("--versi", AVersion); ("--versio", AVersion); ("--version", AVersion);
    ("-e", AExt); ("-ex", AExt); ("-ext", AExt)].
Proof.
  intros n a p I H. destruct (prefix_in _ _ H) as (k & K & ->). clear H.
  cbn [In OPTIONS] in I. repeat (destruct I as [I|I]; [injection I as <- <-; cbn in K; steps k|]). contradiction.
Qed.

Lemma tuples_in : forall t c2 r, let arg := String minus (String c2 r) in In t (option_tuples arg) ->
   (exists e p n a, c2 = minus /\ arg = (p ++ "=" ++ e)%string /\ In (n, a) OPTIONS /\ String.prefix p n = true /\
      t = {| f_action := Some a; f_option := n; f_sep := Some true; f_explicit := Some e |}) \/
   (exists n a, In (n, a) OPTIONS /\ String.prefix arg n = true /\
      t = {| f_action := Some a; f_option := n; f_sep := None; f_explicit := None |}) \/
   (exists a, c2 <> minus /\ In (String minus (String c2 ""), a) OPTIONS /\
      t = {| f_action := Some a; f_option := String minus (String c2 ""); f_sep := Some false; f_explicit := Some r |}).
Proof.
  intros t c2 r arg I. subst arg. unfold option_tuples in I. unfold is_dash in I. destruct (Ascii.eqb_spec c2 minus) as [->|N].
  - destruct (partition_eq (String minus (String minus r))) as [[p e]|] eqn:P.
    + left. apply partition_spec in P. apply in_flat_map in I as ((n & a) & O & T). cbn [fst snd] in T.
      destruct (String.prefix p n) eqn:E; [|destruct T]. destruct T as [T|[]]. exists e, p, n, a. auto.
    + right; left. apply in_flat_map in I as ((n & a) & O & T). cbn [fst snd] in T.
      destruct (String.prefix _ n) eqn:E; [|destruct T]. destruct T as [T|[]]. exists n, a. auto.
  - right. apply in_flat_map in I as ((n & a) & O & T). cbn [fst snd] in T.
    destruct (String.eqb_spec n (String minus (String c2 ""))) as [->|M].
    + right. destruct T as [T|[]]. exists a. auto.
    + left. destruct (String.prefix _ n) eqn:E; [|destruct T]. destruct T as [T|[]]. exists n, a. auto.
Qed.
Lemma sget_in : forall (V : Type) (d : list (string * V)) k v, sget d k = Some v -> In (k, v) d.
Proof.
  induction d as [|[x y] d IH]; intros k v H; unfold sget in H; cbn in H; [discriminate|].
  destruct (String.eqb_spec k x) as [->|]; [inversion H; left; auto|right; apply IH; exact H].
Qed.

(** What an option with a value is *)
Lemma shape : forall arg f w, parse_optional arg = Some (TOpt f) -> f_action f = Some (act w) ->
  match f_explicit f with None => In arg (spellings w) | Some e => phrase w e [arg] end.
Proof.
  intros arg f w P A. destruct arg as [|c r]; [discriminate|]. unfold parse_optional in P.
  unfold is_dash in P. destruct (Ascii.eqb_spec c minus) as [->|N]; [|discriminate]. cbn [negb] in P.
  destruct (sget OPTIONS (String minus r)) as [a|] eqn:G.
  { apply sget_in in G. injection P as <-. cbn [f_explicit f_action] in A |- *. injection A as ->. cbn [In OPTIONS] in G.
    destruct w; repeat (destruct G as [G|G]; [first [discriminate G|injection G as <-; here]|]); contradiction. }
  destruct r as [|c2 r]; [discriminate|].
  destruct (partition_eq (String minus (String c2 r))) as [[o e]|] eqn:Q.
  - destruct (sget OPTIONS o) as [a|] eqn:GO.
    { apply sget_in in GO. injection P as <-. cbn [f_explicit f_action] in A |- *. injection A as ->. rewrite (partition_spec _ _ _ Q). apply with_equals.
      cbn [In OPTIONS] in GO.
      destruct w; repeat (destruct GO as [GO|GO]; [first [discriminate GO|injection GO as <-; here]|]); contradiction. }
    destruct (option_tuples _) as [|t [|]] eqn:T; [destruct (negative_number _); [discriminate|]; destruct (has_blank _); [discriminate|]; injection P as <-; discriminate A| |discriminate].
    injection P as <-. pose proof (tuples_in t c2 r) as V. cbv zeta in V. rewrite T in V.
    destruct (V (or_introl eq_refl)) as [(e' & p & n & a & -> & E & O & H & ->)|[(n & a & O & H & ->)|(a & NE & O & ->)]]; cbn [f_explicit f_action] in A |- *; injection A as ->.
    + rewrite E. apply with_equals. pose proof (prefixes _ _ _ O H) as I.
      cbn [In] in I. destruct w; repeat (destruct I as [I|I]; [first [discriminate I|injection I as <-; first [here|exfalso; first [discriminate E|rewrite E in T; discriminate T]]]|]); contradiction.
    + pose proof (prefixes _ _ _ O H) as I.
      cbn [In] in I. destruct w; repeat (destruct I as [I|I]; [first [discriminate I|injection I as <- <-; first [here|exfalso; first [discriminate Q|discriminate T]]]|]); contradiction.
    + cbn [In OPTIONS] in O. destruct r as [|c3 r].
      { exfalso. clear - O G. repeat (destruct O as [O|O]; [first [discriminate O | injection O as <- _; discriminate G | injection O as <-; discriminate G]|]); contradiction. }
      assert (c3 <> equals).
      { intros ->. clear - Q GO O. cbn in Q. repeat (destruct O as [O|O]; [first [discriminate O|injection O as <- _; cbn in Q; injection Q as <- _; discriminate GO]|]); contradiction. }
      change (String minus (String c2 (String c3 r))) with (String minus (String c2 "") ++ String c3 r)%string.
      apply glued with (c := c3) (r := r); auto.
      clear - O. destruct w; repeat (destruct O as [O|O]; [first [discriminate O|injection O as <-; here]|]); contradiction.
  - destruct (option_tuples _) as [|t [|]] eqn:T; [destruct (negative_number _); [discriminate|]; destruct (has_blank _); [discriminate|]; injection P as <-; discriminate A| |discriminate].
    injection P as <-. pose proof (tuples_in t c2 r) as V. cbv zeta in V. rewrite T in V.
    destruct (V (or_introl eq_refl)) as [(e' & p & n & a & -> & E & O & H & ->)|[(n & a & O & H & ->)|(a & NE & O & ->)]]; cbn [f_explicit f_action] in A |- *; injection A as ->.
    + exfalso. rewrite E in Q. exact (partition_none _ _ Q).
    + pose proof (prefixes _ _ _ O H) as I.
      cbn [In] in I. destruct w; repeat (destruct I as [I|I]; [first [discriminate I|injection I as <- <-; first [here|exfalso; first [discriminate Q|discriminate T]]]|]); contradiction.
    + cbn [In OPTIONS] in O. destruct r as [|c3 r].
      { exfalso. clear - O G. repeat (destruct O as [O|O]; [first [discriminate O | injection O as <- _; discriminate G | injection O as <-; discriminate G]|]); contradiction. }
      assert (c3 <> equals).
      { intros ->. exact (partition_none (String minus (String c2 "")) r Q). }
      change (String minus (String c2 (String c3 r))) with (String minus (String c2 "") ++ String c3 r)%string.
      apply glued with (c := c3) (r := r); auto.
      clear - O. destruct w; repeat (destruct O as [O|O]; [first [discriminate O|injection O as <-; here]|]); contradiction.
Qed.

(** ** Negative numbers *)
Definition nl : string := String (ascii_of_nat 10) "".
Definition digs (s : string) : Prop := Forall decimal (list_ascii_of_string s).
Lemma digit_decimal : forall c, digit c = true <-> decimal c.
Proof.
  intros c. unfold digit, decimal. rewrite andb_true_iff, !Nat.leb_le. split.
  - intros (A & B). rewrite <- (ascii_nat_embedding c).
    change (list_ascii_of_string "0123456789") with (map ascii_of_nat [48;49;50;51;52;53;54;55;56;57]%nat). apply in_map. cbn [In]. lia.
  - cbn [In list_ascii_of_string]. intros H. repeat (destruct H as [<-|H]; [split; apply Nat.leb_le; reflexivity|]). destruct H.
Qed.
Lemma at_end_spec : forall s, at_end s = true <-> s = "" \/ s = nl.
Proof.
  intros s. destruct s as [|c [|d s]]; cbn [at_end].
  - split; auto.
  - destruct (Ascii.eqb_spec c (ascii_of_nat 10)) as [->|N]; split; auto; try discriminate.
    intros [H|H]; [discriminate|]. exfalso. apply N. unfold nl in H. congruence.
  - split; [discriminate|]. intros [H|H]; discriminate H.
Qed.
Lemma digits_end_spec : forall s more, digits_end more s = true <->
  exists b, digs b /\ (more = true \/ b <> "") /\ (s = b \/ s = (b ++ nl)%string).
Proof.
  induction s as [|c s IH]; intros more.
  - cbn [digits_end at_end]. rewrite andb_true_r, orb_false_r. split.
    + intros ->. exists "". split; [constructor|]. auto.
    + intros (b & _ & [->|N] & [E|E]); auto; exfalso; destruct b; first [congruence|discriminate].
  - cbn [digits_end]. rewrite orb_true_iff, !andb_true_iff, digit_decimal, IH, at_end_spec. split.
    + intros [(-> & [H|H])|(D & b & B & _ & E)]; [discriminate| |].
      * exists "". split; [constructor|]. split; auto.
      * exists (String c b). split; [constructor; auto|]. split; [right; discriminate|]. destruct E as [->| ->]; auto.
    + intros (b & B & M & E). destruct b as [|d b].
      * destruct M as [->|M]; [|congruence]. left. split; auto.
      * right. inversion B; subst. destruct E as [E|E]; injection E as -> ->; (split; [assumption|]); exists b; auto.
Qed.
Lemma fraction_spec : forall s, fraction s = true <->
  exists a b, digs a /\ all_digits b /\ (s = (a ++ "." ++ b)%string \/ s = (a ++ "." ++ b ++ nl)%string).
Proof.
  induction s as [|c s IH]; cbn [fraction].
  - split; [discriminate|]. intros (a & b & _ & _ & [E|E]); destruct a; discriminate.
  - destruct (Ascii.eqb_spec c (ascii_of_nat 46)) as [->|N].
    + rewrite digits_end_spec. split.
      * intros (b & B & [M|M] & E); [discriminate|]. exists "", b. split; [constructor|]. split; [split; auto|].
        destruct E as [->| ->]; [left|right]; reflexivity.
      * intros (a & b & A & (NE & B) & E). destruct a as [|d a].
        -- exists b. split; auto. split; auto. destruct E as [E|E]; injection E as ->; auto.
        -- inversion A; subst. exfalso. destruct E as [E|E]; injection E as E1 _; subst d; clear - H1; vm_compute in H1; repeat (destruct H1 as [H1|H1]; [discriminate H1|]); destruct H1.
    + rewrite andb_true_iff, digit_decimal, IH. split.
      * intros (D & a & b & A & B & E). exists (String c a), b. split; [constructor; auto|]. split; auto.
        destruct E as [->| ->]; [left|right]; reflexivity.
      * intros (a & b & A & B & E). destruct a as [|d a].
        -- exfalso. destruct E as [E|E]; injection E as E1 _; apply N; rewrite E1; reflexivity.
        -- inversion A; subst. destruct E as [E|E]; injection E as -> ->; (split; [assumption|]); exists a, b; auto.
Qed.
Lemma append_assoc_s : forall a b c : string, ((a ++ b) ++ c = a ++ b ++ c)%string.
Proof. induction a; cbn; intros; [reflexivity|]. now rewrite IHa. Qed.
Lemma negative_spec : forall s, negative_number s = true <-> negative s.
Proof.
  intros s. unfold negative. destruct s as [|c s]; cbn [negative_number].
  { split; [discriminate|]. intros (b & [E|E] & _); discriminate. }
  unfold is_dash. rewrite andb_true_iff, orb_true_iff, digits_end_spec, fraction_spec. split.
  - intros (C & H). apply Ascii.eqb_eq in C. subst c. destruct H as [(b & B & [M|M] & E)|(a & b & A & B & E)]; [discriminate| |].
    + exists b. split; [destruct E as [->| ->]; [left|right]; reflexivity|]. left. split; auto.
    + exists (a ++ "." ++ b)%string. split.
      * destruct E as [->| ->]; [left; reflexivity|right]. cbn. rewrite append_assoc_s. reflexivity.
      * right. exists a, b. split; auto. split; auto. destruct a; [left; reflexivity|right]. split; [discriminate|exact A].
  - intros (body & E & H). assert (C : c = minus) by (destruct E as [E|E]; injection E as -> _; reflexivity). subst c.
    split; [reflexivity|]. assert (E' : s = body \/ s = (body ++ nl)%string) by (destruct E as [E|E]; injection E as ->; auto).
    destruct H as [(NE & B)|(a & b & -> & A & B)].
    + left. exists body. auto.
    + right. exists a, b. split; [destruct A as [->|(_ & A)]; [constructor|exact A]|]. split; auto.
      destruct E' as [->| ->]; [left; reflexivity|right]. rewrite append_assoc_s. reflexivity.
Qed.

Lemma digit_cases : forall c, decimal c -> In c (map ascii_of_nat [48;49;50;51;52;53;54;55;56;57]%nat).
Proof.
  intros c H. exact H.
Qed.
Lemma negative_start : forall s, negative s -> exists c r, s = String minus (String c r) /\ In c (map ascii_of_nat [46;48;49;50;51;52;53;54;55;56;57]%nat).
Proof.
  intros s (body & E & H).
  assert (K : exists c r, body = String c r /\ In c (map ascii_of_nat [46;48;49;50;51;52;53;54;55;56;57]%nat)).
  { destruct H as [(NE & B)|(a & b & -> & [->|(NE & A)] & _)].
    - destruct body as [|c r]; [congruence|]. exists c, r. split; auto. inversion B; subst. cbn [map]. right. apply digit_cases; auto.
    - eexists _, _. split; [reflexivity|]. left. reflexivity.
    - destruct a as [|c r]; [congruence|]. eexists c, _. split; [reflexivity|]. inversion A; subst. cbn [map]. right. apply digit_cases; auto. }
  destruct K as (c & r & -> & I). destruct E as [->| ->]; [exists c, r|exists c, (r ++ nl)%string]; split; auto.
Qed.

(** ** Arguments that are not options *)
Lemma has_blank_spec : forall s, has_blank s = true <-> exists a b, s = (a ++ " " ++ b)%string.
Proof.
  induction s as [|c s IH]; cbn [has_blank].
  - split; [discriminate|]. intros (a & b & E). destruct a; discriminate.
  - destruct (Ascii.eqb_spec c blank) as [->|N]; cbn [orb].
    + split; auto. intros _. exists "", s. reflexivity.
    + rewrite IH. split.
      * intros (a & b & ->). exists (String c a), b. reflexivity.
      * intros (a & b & E). destruct a as [|d a]; [exfalso; apply N; injection E as -> _; reflexivity|].
        injection E as -> ->. exists a, b. reflexivity.
Qed.
Lemma options_like : forall n a p, In (n, a) OPTIONS -> String.prefix p n = true -> has_blank p = false.
Proof. intros n a p O H. pose proof (prefixes _ _ _ O H) as I. cbn [In] in I. repeat (destruct I as [I|I]; [inj I; reflexivity|]). contradiction. Qed.
Lemma start_not_arg : forall p r, In p starts -> parse_optional (p ++ r)%string <> Some TArg.
Proof.
  intros p r I. incases I; destruct r as [|c r]; try discriminate; unfold parse_optional; cbn [append partition_eq];
  destruct (Ascii.eqb c equals); [discriminate| |discriminate| |discriminate| |discriminate|];
  destruct (partition_eq r) as [[a b]|]; cbn; discriminate.
Qed.
Lemma start_eq_not_arg : forall p r, In p starts_eq -> parse_optional (p ++ "=" ++ r)%string <> Some TArg.
Proof. intros p r I. incases I; cbn; discriminate. Qed.
Lemma plain_arg : forall s, plain s -> parse_optional s = Some TArg.
Proof.
  intros s H. destruct H as [|c r N| |s NG|r a b E NO].
  - reflexivity.
  - unfold parse_optional, is_dash. change (c <> minus) in N. apply Ascii.eqb_neq in N. rewrite N. reflexivity.
  - reflexivity.
  - destruct (negative_start s NG) as (c & r & -> & I). apply negative_spec in NG. unfold parse_optional. rewrite NG.
    assert (T : option_tuples (String minus (String c r)) = []).
    { clear NG. cbn [map In] in I. repeat (destruct I as [<-|I]; [reflexivity|]). contradiction. }
    rewrite T.
    assert (G : forall x, sget OPTIONS (String minus (String c x)) = None).
    { clear NG T. intros x. cbn [map In] in I. repeat (destruct I as [<-|I]; [reflexivity|]). contradiction. }
    rewrite G. change (is_dash minus) with true. cbn [negb].
    assert (P : match partition_eq (String minus (String c r)) with Some (o, e) => match sget OPTIONS o with Some a => Some (a, o, e) | None => None end | None => None end = (None : option (action * string * string))).
    { cbn [partition_eq]. change (Ascii.eqb minus equals) with false. cbv iota.
      replace (Ascii.eqb c equals) with false by (clear -I; cbn [map In] in I; repeat (destruct I as [<-|I]; [reflexivity|]); contradiction).
      destruct (partition_eq r) as [[x y]|]; [|reflexivity]. rewrite G. reflexivity. }
    rewrite P. reflexivity.
  - assert (HB : has_blank ("-" ++ r)%string = true) by (apply has_blank_spec; eauto). clear a b E.
    unfold parse_optional. change ("-" ++ r)%string with (String minus r) in *. change (is_dash minus) with true. cbn [negb].
    destruct (sget OPTIONS (String minus r)) eqn:G.
    { apply sget_in in G. cbn [In OPTIONS] in G. exfalso. repeat (destruct G as [G|G]; [inj G; discriminate HB|]). contradiction. }
    destruct r as [|c r]; [reflexivity|].
    assert (P : match partition_eq (String minus (String c r)) with Some (o, e) => match sget OPTIONS o with Some a => Some (a, o, e) | None => None end | None => None end = (None : option (action * string * string))).
    { destruct (partition_eq _) as [[o e]|] eqn:P; [|reflexivity]. destruct (sget OPTIONS o) eqn:GO; [|reflexivity]. exfalso. apply NO.
      apply sget_in in GO. apply partition_spec in P. rewrite P. cbn [In OPTIONS] in GO.
      repeat (destruct GO as [GO|GO]; [inj GO; first [right; eexists _, _; split; [|reflexivity]; here|left; eexists _, _; split; [|reflexivity]; here]|]). contradiction. }
    rewrite P.
    destruct (option_tuples _) as [|t ts] eqn:T.
    + destruct (negative_number _); [reflexivity|]. rewrite HB. reflexivity.
    + exfalso. apply NO. pose proof (tuples_in t c r) as V. cbv zeta in V. rewrite T in V.
      destruct (V (or_introl eq_refl)) as [(e' & p & n & a & -> & E & O & H & _)|[(n & a & O & H & _)|(a & NE & O & _)]].
      * pose proof (prefixes _ _ _ O H) as I. rewrite E. right. exists p, e'. split; [|reflexivity]. cbn [In] in I.
        repeat (destruct I as [I|I]; [inj I; first [discriminate E|here]|]). contradiction.
      * rewrite (options_like _ _ _ O H) in HB. discriminate.
      * left. exists (String minus (String c "")), r. split; [|reflexivity]. cbn [In OPTIONS] in O.
        repeat (destruct O as [O|O]; [first [discriminate O|inj O; here]|]). contradiction.
Qed.
Lemma arg_plain : forall s, parse_optional s = Some TArg -> plain s.
Proof.
  intros s H. destruct s as [|c r]; [constructor|].
  destruct (Ascii.eqb_spec c minus) as [->|N]; [|now constructor].
  destruct (negative_number (String minus r)) eqn:NN; [apply plain_negative, negative_spec; exact NN|].
  destruct r as [|c r]; [apply plain_dash|].
  assert (HB : has_blank (String minus (String c r)) = true).
  { unfold parse_optional in H. rewrite NN in H. change (is_dash minus) with true in H. cbn [negb] in H.
    destruct (sget OPTIONS _); [discriminate|]. destruct (match partition_eq _ with Some _ => _ | None => _ end) as [[[? ?] ?]|]; [discriminate|].
    destruct (option_tuples _) as [|t [|]]; [|discriminate|discriminate]. destruct (has_blank _); [reflexivity|discriminate]. }
  apply has_blank_spec in HB as (a & b & E).
  apply (plain_spaced (String c r) a b E). intros [(p & q & I & X)|(p & q & I & X)]; change ("-" ++ String c r)%string with (String minus (String c r)) in X; rewrite X in H.
  - exact (start_not_arg p q I H).
  - exact (start_eq_not_arg p q I H).
Qed.

(** ** Runs *)
Definition upd (w : setting) (v : string) (n : namespace) : namespace :=
  match w with
  | Format => {| n_format := v; n_ini := n_ini n; n_ext := n_ext n; n_source := n_source n |}
  | Ini => {| n_format := n_format n; n_ini := Some v; n_ext := n_ext n; n_source := n_source n |}
  | Ext => {| n_format := n_format n; n_ini := n_ini n; n_ext := v; n_source := n_source n |}
  end.
Definition apply (s : list (setting * string)) (n : namespace) : namespace := fold_left (fun n wv => upd (fst wv) (snd wv) n) s n.
Lemma take_known : forall w v n, (w = Format -> In v FORMATS) -> take_option (act w) v n = Accepted (upd w v n).
Proof.
  intros w v n H. destruct w; cbn [act take_option upd]; auto.
  replace (existsb (String.eqb v) FORMATS) with true; [reflexivity|]. symmetry. apply existsb_exists. exists v. split; [auto|apply String.eqb_refl].
Qed.
Lemma take_accepted : forall a v n n', take_option a v n = Accepted n' -> exists w, a = act w /\ n' = upd w v n /\ (w = Format -> In v FORMATS).
Proof.
  intros a v n n' H. destruct a; cbn [take_option] in H; try discriminate.
  - destruct (existsb _ _) eqn:E; [|discriminate]. exists Format. injection H as <-. split; [reflexivity|]. split; [reflexivity|]. intros _.
    apply existsb_exists in E as (x & I & E). apply String.eqb_eq in E. subst. exact I.
  - exists Ini. injection H as <-. repeat split; discriminate.
  - exists Ext. injection H as <-. repeat split; discriminate.
Qed.
Lemma takes_one_act : forall w, takes_one (act w) = true.
Proof. destruct w; reflexivity. Qed.

Definition opt_first (ts : list (string * tok)) : Prop := match ts with [] => True | (_, t) :: _ => is_opt t = true end.
Lemma phrase_run : forall w v l, phrase w v l -> exists ts, length ts = length l /\ opt_first ts /\ ts <> [] /\
  (forall rest, classify (l ++ rest) = match classify rest with Some tr => Some (ts ++ tr) | None => None end) /\
  ((w = Format -> In v FORMATS) -> forall k rest n, consume_all (S k) (ts ++ rest) n [] = consume_all k rest (upd w v n) []).
Proof.
  intros w v l H. destruct H as [w v s I P|w v s I|w v s c r I E N].
  - destruct (spelled_word w s I) as (o & O & D). pose proof (plain_arg v P) as A.
    exists [(s, TOpt {| f_action := Some (act w); f_option := o; f_sep := None; f_explicit := None |}); (v, TArg)].
    split; [reflexivity|]. split; [reflexivity|]. split; [discriminate|]. split.
    + intros rest. cbn [app classify]. rewrite D, O, A.
      destruct (String.eqb_spec v "--") as [->|]; [discriminate A|]. destruct (classify rest); reflexivity.
    + intros F k rest n. cbn [app consume_all before_option snd is_opt map fst]. cbn [has_arg existsb consume f_action f_explicit]. rewrite takes_one_act.
      cbn [app take_options]. rewrite (take_known w v _ F). destruct (n_source n); reflexivity.
  - destruct (spelled_equals w s v I) as (o & O & D).
    exists [((s ++ "=" ++ v)%string, TOpt {| f_action := Some (act w); f_option := o; f_sep := Some true; f_explicit := Some v |})].
    split; [reflexivity|]. split; [reflexivity|]. split; [discriminate|]. split.
    + intros rest. cbn [app classify]. rewrite D, O. destruct (classify rest); reflexivity.
    + intros F k rest n. cbn [app consume_all before_option snd is_opt map fst]. cbn [has_arg existsb consume f_action f_explicit]. rewrite takes_one_act.
      cbn [app take_options]. rewrite (take_known w v _ F). destruct (n_source n); reflexivity.
  - subst v. destruct (spelled_glued w s c r I N) as (o & O & D).
    exists [((s ++ String c r)%string, TOpt {| f_action := Some (act w); f_option := o; f_sep := Some false; f_explicit := Some (String c r) |})].
    split; [reflexivity|]. split; [reflexivity|]. split; [discriminate|]. split.
    + intros rest. cbn [app classify]. rewrite D, O. destruct (classify rest); reflexivity.
    + intros F k rest n. cbn [app consume_all before_option snd is_opt map fst]. cbn [has_arg existsb consume f_action f_explicit]. rewrite takes_one_act.
      cbn [app take_options]. rewrite (take_known w _ _ F). destruct (n_source n); reflexivity.
Qed.
Lemma phrases_run : forall s l, phrases s l -> exists ts, length ts = length l /\ (length s <= length l)%nat /\ opt_first ts /\
  (forall rest, classify (l ++ rest) = match classify rest with Some tr => Some (ts ++ tr) | None => None end) /\
  (formats_known s -> forall k rest n, consume_all (length s + k) (ts ++ rest) n [] = consume_all k rest (apply s n) []).
Proof.
  intros s l H. induction H as [|w v l s r P PS (ts & L & LE & O & C & R)].
  - exists []. split; [reflexivity|]. split; [reflexivity|]. split; [exact I|]. split; [intros rest; cbn; destruct (classify rest); reflexivity|].
    intros _ k rest n. reflexivity.
  - destruct (phrase_run _ _ _ P) as (t1 & L1 & O1 & NE & C1 & R1). exists (t1 ++ ts). rewrite !app_length.
    split; [congruence|]. split; [cbn [length]; assert (length t1 <> 0)%nat by (destruct t1; [congruence|discriminate]); lia|].
    split; [destruct t1; [congruence|exact O1]|]. split.
    + intros rest. rewrite <- app_assoc, C1, C. destruct (classify rest); [rewrite app_assoc|]; reflexivity.
    + intros F k rest n. cbn [length Nat.add]. rewrite <- app_assoc, R1.
      * rewrite R; [reflexivity|]. intros x X. apply F. right. exact X.
      * intros ->. apply F. left. reflexivity.
Qed.
Lemma before_option_app : forall seg rest, Forall (fun x => is_opt (snd x) = false) seg -> opt_first rest -> before_option (seg ++ rest) = (seg, rest).
Proof.
  induction seg as [|x seg IH]; intros rest F O.
  - cbn. destruct rest as [|[a t] rest]; [reflexivity|]. cbn in O |- *. rewrite O. reflexivity.
  - inversion F; subst. cbn [app before_option]. rewrite H1, (IH rest H2 O). reflexivity.
Qed.
Lemma block_run : forall k seg rest n, Forall (fun x => is_opt (snd x) = false) seg -> opt_first rest -> has_arg seg = true -> n_source n = None ->
  consume_all (S k) (seg ++ rest) n [] = consume_all (S k) rest (set_source (map fst seg) n) [].
Proof.
  intros k seg rest n F O A N. cbn [consume_all]. rewrite (before_option_app seg rest F O).
  rewrite (before_option_app [] rest (Forall_nil _) O : before_option rest = ([], rest)). rewrite N, A. cbn [n_source set_source map]. reflexivity.
Qed.
Lemma classify_plain : forall l rest, Forall plain l ->
  classify (l ++ rest) = match classify rest with Some tr => Some (map (fun x => (x, TArg)) l ++ tr) | None => None end.
Proof.
  induction l as [|x l IH]; intros rest F; cbn [app classify map]; [destruct (classify rest); reflexivity|].
  inversion F; subst. pose proof (plain_arg x H1) as A. rewrite A, (IH rest H2).
  destruct (String.eqb_spec x "--") as [->|]; [discriminate A|]. destruct (classify rest); reflexivity.
Qed.
Lemma apply_source : forall s n, n_source (apply s n) = n_source n.
Proof. induction s as [|[w v] s IH]; intros n; [reflexivity|]. cbn. change (n_source (apply s (upd w v n)) = n_source n). rewrite IH. destruct w; reflexivity. Qed.
Lemma set_source_apply : forall s srcs n, apply s (set_source srcs n) = set_source srcs (apply s n).
Proof. induction s as [|[w v] s IH]; intros srcs n; [reflexivity|]. cbn. change (apply s (upd w v (set_source srcs n)) = set_source srcs (apply s (upd w v n))). rewrite <- IH. destruct w; reflexivity. Qed.
Lemma apply_app : forall a b n, apply (a ++ b) n = apply b (apply a n).
Proof. intros. apply fold_left_app. Qed.
Lemma plain_not_dashes : forall l, Forall plain l -> ~ In "--" l.
Proof. intros l F I. rewrite Forall_forall in F. specialize (F _ I). apply plain_arg in F. discriminate. Qed.
Lemma remove_first_none : forall l, ~ In "--" l -> remove_first l = l.
Proof. induction l as [|x l IH]; intros N; [reflexivity|]. cbn. destruct (String.eqb_spec x "--") as [->|]; [exfalso; apply N; left; reflexivity|]. f_equal. apply IH. intros I; apply N; right; exact I. Qed.
Lemma remove_first_at : forall a b, ~ In "--" a -> remove_first (a ++ "--" :: b) = a ++ b.
Proof. induction a as [|x a IH]; intros b N; [reflexivity|]. cbn [app remove_first]. destruct (String.eqb_spec x "--") as [->|]; [exfalso; apply N; left; reflexivity|]. f_equal. apply IH. intros I; apply N; right; exact I. Qed.
Lemma map_fst_pair : forall (T : Type) (t : T) (l : list string), map fst (map (fun x => (x, t)) l) = l.
Proof. intros. rewrite map_map. apply map_id. Qed.
Lemma consume_end : forall k n, n_source n <> None -> consume_all (S k) [] n [] = Accepted n.
Proof. intros k n H. cbn. destruct (n_source n) eqn:E; [rewrite E; reflexivity|congruence]. Qed.

Lemma complete : forall argv s srcs, says argv s srcs -> formats_known s ->
  parse_args argv = Accepted {| n_format := n_format (apply s defaults); n_ini := n_ini (apply s defaults); n_ext := n_ext (apply s defaults); n_source := Some srcs |}.
Proof.
  intros argv s srcs (s1 & s2 & before & block & after & -> & -> & P1 & P2 & NE & B) F.
  destruct (phrases_run _ _ P1) as (t1 & L1 & LE1 & O1 & C1 & R1).
  destruct (phrases_run _ _ P2) as (t2 & L2 & LE2 & O2 & C2 & R2).
  assert (F1 : formats_known s1) by (intros v I; apply F; apply in_or_app; auto).
  assert (F2 : formats_known s2) by (intros v I; apply F; apply in_or_app; auto).
  assert (C2' : classify after = Some t2) by (rewrite <- (app_nil_r after), C2; cbn; rewrite app_nil_r; reflexivity).
  assert (B' : exists tb, classify (block ++ after) = Some (tb ++ t2) /\ Forall (fun x => is_opt (snd x) = false) tb /\ has_arg tb = true /\ remove_first (map fst tb) = srcs).
  { destruct B as [(-> & PL)|(-> & a & b & -> & -> & PL)].
    - exists (map (fun x => (x, TArg)) srcs). split; [rewrite (classify_plain _ _ PL), C2'; reflexivity|]. split.
      + apply Forall_forall. intros x I. apply in_map_iff in I as (y & <- & _). reflexivity.
      + split; [destruct srcs; [congruence|reflexivity]|]. rewrite map_fst_pair. apply remove_first_none, plain_not_dashes, PL.
    - rewrite app_nil_r. rewrite (classify_plain _ _ PL). cbn [classify]. change (String.eqb "--" "--") with true. cbv iota.
      cbn in C2'. injection C2' as <-.
      exists (map (fun x => (x, TArg)) a ++ ("--", TDash) :: map (fun x => (x, TArg)) b). rewrite app_nil_r. split; [reflexivity|]. split; [|split].
      + apply Forall_app. split; [|constructor; [reflexivity|]]; apply Forall_forall; intros x I; apply in_map_iff in I as (y & <- & _); reflexivity.
      + unfold has_arg. rewrite existsb_app. destruct a as [|x a]; [|reflexivity]. destruct b as [|x b]; [exfalso; apply NE; reflexivity|reflexivity].
      + rewrite map_app. cbn [map fst]. rewrite !map_fst_pair. apply remove_first_at, plain_not_dashes, PL. }
  destruct B' as (tb & CB & FB & HA & RM).
  unfold parse_args. rewrite C1, CB.
  assert (K : exists k, S (length (t1 ++ tb ++ t2)) = (length s1 + S (length s2 + k))%nat).
  { rewrite !app_length. assert (length tb <> 0)%nat by (destruct tb; [discriminate HA|discriminate]). exists (length t1 - length s1 + (length tb - 1) + (length t2 - length s2) + 1)%nat. lia. }
  destruct K as (k & ->). rewrite (R1 F1).
  rewrite block_run; auto; [|rewrite apply_source; reflexivity].
  replace (S (length s2 + k)) with (length s2 + S k)%nat by lia. rewrite <- (app_nil_r t2), (R2 F2).
  rewrite set_source_apply, <- apply_app. rewrite consume_end by (cbn; discriminate). unfold set_source. rewrite RM. reflexivity.
Qed.

(** ** What is accepted was said *)
Lemma accepted_no_extras : forall k ts n ex n', consume_all k ts n ex = Accepted n' -> ex = [].
Proof.
  induction k as [|k IH]; intros ts n ex n' H; [discriminate|]. cbn [consume_all] in H.
  destruct (before_option ts) as [seg rest].
  set (take := match n_source n with None => has_arg seg | Some _ => false end) in *.
  set (n1 := if take then set_source (map fst seg) n else n) in *.
  set (ex1 := if take then ex else ex ++ map fst seg) in *.
  assert (E1 : ex1 = [] -> ex = []) by (unfold ex1; destruct take; [auto|intros X; apply app_eq_nil in X; tauto]).
  assert (GO : forall l r x, match take_options l n1 with Accepted n2 => consume_all k r n2 (ex1 ++ x) | p => p end = Accepted n' -> ex = []).
  { intros l r x G. destruct (take_options l n1) as [n2| | |]; try discriminate. apply IH in G. apply E1. apply app_eq_nil in G. tauto. }
  assert (GO' : forall l r, match take_options l n1 with Accepted n2 => consume_all k r n2 ex1 | p => p end = Accepted n' -> ex = []).
  { intros l r G. apply (GO l r []). rewrite app_nil_r. exact G. }
  destruct rest as [|[arg t] r].
  - destruct (n_source n1); [|discriminate]. destruct ex1; [auto|discriminate].
  - destruct t as [| |f]; try discriminate. destruct (consume arg f) as [|l x|l a]; [discriminate|eauto|].
    destruct (takes_one a); [|eauto]. destruct r as [|[v [| |]] r']; try discriminate. eauto.
Qed.
Lemma series_acc : forall e acc sep, match series acc sep e with CErr => True | CDone l _ => exists t, l = acc ++ t | CNext l _ => exists t, l = acc ++ t end.
Proof.
  intros e. remember (String.length e) as m eqn:M. assert (L : (String.length e <= m)%nat) by lia. clear M. revert e L.
  induction m as [|m IH]; intros e L acc sep; destruct e as [|c r]; try exact I; [cbn in L; lia|]. cbn [series]. destruct (sep || is_dash c); [exact I|].
  destruct (sget OPTIONS _) as [a|]; [|exists []; rewrite app_nil_r; reflexivity].
  destruct r as [|c2 r2]; [exists []; rewrite app_nil_r; reflexivity|].
  destruct (Ascii.eqb c2 equals).
  - destruct (takes_one a); [eexists; reflexivity|]. specialize (IH r2 ltac:(cbn in L; lia) (acc ++ [(a, "")]) true).
    destruct (series (acc ++ [(a, "")]) true r2); auto; destruct IH as (t & ->); rewrite <- app_assoc; eexists; reflexivity.
  - destruct (takes_one a); [eexists; reflexivity|]. specialize (IH (String c2 r2) ltac:(cbn in L |- *; lia) (acc ++ [(a, "")]) false).
    destruct (series (acc ++ [(a, "")]) false (String c2 r2)); auto; destruct IH as (t & ->); rewrite <- app_assoc; eexists; reflexivity.
Qed.
Lemma flag_first : forall a v t n n', takes_one a = false -> take_options ((a, v) :: t) n <> Accepted n'.
Proof. intros a v t n n' T. destruct a; try discriminate T; cbn; discriminate. Qed.

Lemma classify_opt : forall l arg f r, classify l = Some ((arg, TOpt f) :: r) ->
  exists l', l = arg :: l' /\ parse_optional arg = Some (TOpt f) /\ classify l' = Some r.
Proof.
  intros l arg f r H. destruct l as [|x l]; [discriminate|]. cbn [classify] in H. destruct (String.eqb x "--"); [discriminate|].
  destruct (parse_optional x) as [t|] eqn:P; [|discriminate]. destruct (classify l) as [ts|] eqn:C; [|discriminate].
  injection H as -> -> ->. exists l. auto.
Qed.
Lemma classify_arg : forall l v r, classify l = Some ((v, TArg) :: r) -> exists l', l = v :: l' /\ plain v /\ classify l' = Some r.
Proof.
  intros l v r H. destruct l as [|x l]; [discriminate|]. cbn [classify] in H. destruct (String.eqb x "--"); [discriminate|].
  destruct (parse_optional x) as [t|] eqn:P; [|discriminate]. destruct (classify l) as [ts|] eqn:C; [|discriminate].
  injection H as -> -> ->. exists l. split; auto. split; auto. apply arg_plain. exact P.
Qed.
Lemma one_option_accepted : forall a v n k r n', match take_options [(a, v)] n with Accepted n2 => consume_all k r n2 [] | p => p end = Accepted n' ->
  exists w, a = act w /\ (w = Format -> In v FORMATS) /\ consume_all k r (upd w v n) [] = Accepted n'.
Proof.
  intros a v n k r n' H. cbn [take_options] in H. destruct (take_option a v n) as [n2| | |] eqn:T; try discriminate.
  destruct (take_accepted _ _ _ _ T) as (w & -> & -> & F). exists w. auto.
Qed.

Lemma step : forall k arg f r n n' l, classify l = Some ((arg, TOpt f) :: r) -> consume_all (S k) ((arg, TOpt f) :: r) n [] = Accepted n' ->
  exists w v p l' r', phrase w v p /\ l = p ++ l' /\ classify l' = Some r' /\ (w = Format -> In v FORMATS) /\ consume_all k r' (upd w v n) [] = Accepted n'.
Proof.
  intros k arg f r n n' l C H. destruct (classify_opt _ _ _ _ C) as (l' & -> & P & C').
  cbn [consume_all before_option snd is_opt map] in H.
  replace (match n_source n with None => has_arg [] | Some _ => false end) with false in H by (destruct (n_source n); reflexivity).
  cbn [app] in H. unfold consume in H.
  destruct (f_action f) as [a|] eqn:A.
  2:{ cbn [take_options] in H. apply accepted_no_extras in H. discriminate. }
  destruct (f_explicit f) as [e|] eqn:E.
  - destruct (takes_one a) eqn:T.
    + destruct (one_option_accepted _ _ _ _ _ _ H) as (w & -> & F & G). exists w, e, [arg], l', r.
      split; [|auto]. pose proof (shape arg f w P A) as S. rewrite E in S. exact S.
    + exfalso. destruct (f_option f) as [|c1 [|c2 o]]; try discriminate. destruct (is_dash c2); [discriminate|].
      pose proof (series_acc e [(a, "")] (match f_sep f with Some true => true | _ => false end)) as V.
      destruct (series _ _ e) as [|lo x|lo b]; [discriminate| |].
      * destruct V as (t & ->). destruct (take_options _ n) eqn:G in H; try discriminate. exact (flag_first a "" t n _ T G).
      * destruct V as (t & ->). destruct (takes_one b).
        -- destruct r as [|[v [| |]] r']; try discriminate. destruct (take_options _ n) eqn:G in H; try discriminate. exact (flag_first a "" (t ++ [(b, v)]) n _ T G).
        -- destruct (take_options _ n) eqn:G in H; try discriminate. exact (flag_first a "" (t ++ [(b, "")]) n _ T G).
  - destruct (takes_one a) eqn:T.
    + destruct r as [|[v [| |]] r']; try discriminate. destruct (classify_arg _ _ _ C') as (l2 & -> & PV & C2).
      destruct (one_option_accepted _ _ _ _ _ _ H) as (w & -> & F & G). exists w, v, [arg; v], l2, r'.
      split; [|auto]. pose proof (shape arg f w P A) as S. rewrite E in S. apply two_words; auto.
    + exfalso. destruct (take_options _ n) eqn:G in H; try discriminate. exact (flag_first a "" [] n _ T G).
Qed.

Lemma segs : forall l ts seg rest, classify l = Some ts -> before_option ts = (seg, rest) ->
  Forall (fun x => is_opt (snd x) = false) seg /\ opt_first rest /\ ts = seg ++ rest /\
  ((exists l2, l = map fst seg ++ l2 /\ Forall plain (map fst seg) /\ classify l2 = Some rest /\ (seg <> [] -> has_arg seg = true)) \/
   (rest = [] /\ exists a b, l = a ++ "--" :: b /\ map fst seg = l /\ Forall plain a /\ (has_arg seg = true -> a ++ b <> []))).
Proof.
  induction l as [|x l IH]; intros ts seg rest C B.
  - injection C as <-. injection B as <- <-. split; [constructor|]. split; [exact I|]. split; [reflexivity|]. left. exists [].
    split; [reflexivity|]. split; [constructor|]. split; [reflexivity|congruence].
  - cbn [classify] in C. destruct (String.eqb_spec x "--") as [->|N].
    + injection C as <-. assert (X : before_option (("--", TDash) :: map (fun x => (x, TArg)) l) = (("--", TDash) :: map (fun x => (x, TArg)) l, [])).
      { rewrite <- (app_nil_r (_ :: _)) at 1. apply before_option_app; [|exact I]. constructor; [reflexivity|].
        apply Forall_forall. intros y J. apply in_map_iff in J as (z & <- & _). reflexivity. }
      rewrite X in B. injection B as <- <-. split; [|split; [exact I|split; [rewrite app_nil_r; reflexivity|]]].
      * constructor; [reflexivity|]. apply Forall_forall. intros y J. apply in_map_iff in J as (z & <- & _). reflexivity.
      * right. split; [reflexivity|]. exists [], l. split; [reflexivity|]. split; [cbn [map fst]; rewrite map_fst_pair; reflexivity|].
        split; [constructor|]. intros HA. destruct l; [discriminate HA|discriminate].
    + destruct (parse_optional x) as [t|] eqn:P; [|discriminate]. destruct (classify l) as [ts'|] eqn:C'; [|discriminate]. injection C as <-.
      cbn [before_option snd] in B. destruct (is_opt t) eqn:T.
      * injection B as <- <-. split; [constructor|]. split; [exact T|]. split; [reflexivity|]. left. exists (x :: l).
        split; [reflexivity|]. split; [constructor|]. split; [|congruence]. cbn [classify].
        rewrite (proj2 (String.eqb_neq x "--") N), P, C'. reflexivity.
      * destruct (before_option ts') as [s2 r2] eqn:B2. injection B as <- <-.
        destruct (IH _ _ _ eq_refl B2) as (F & O & E & H).
        assert (t = TArg).
        { destruct t as [| |f]; [reflexivity| |discriminate T]. exfalso. clear - P. unfold parse_optional in P. destruct x as [|c r]; [discriminate|].
          destruct (negb _); [discriminate|]. destruct (sget _ _); [discriminate|]. destruct r; [discriminate|].
          destruct (match partition_eq _ with Some _ => _ | None => _ end) as [[[? ?] ?]|]; [discriminate|].
          destruct (option_tuples _) as [|? [|]]; [|discriminate|discriminate]. destruct (negative_number _); [discriminate|]. destruct (has_blank _); discriminate. }
        subst t. pose proof (arg_plain x P) as PX.
        split; [constructor; [reflexivity|exact F]|]. split; [exact O|]. split; [rewrite E; reflexivity|].
        destruct H as [(l2 & -> & PL & C2 & HA)|(-> & a & b & -> & M & PL & HA)].
        -- left. exists l2. split; [reflexivity|]. split; [constructor; auto|]. split; [exact C2|reflexivity].
        -- right. split; [reflexivity|]. exists (x :: a), b. split; [reflexivity|]. split; [cbn [map fst]; rewrite M; reflexivity|].
           split; [constructor; auto|discriminate].
Qed.

Lemma sound_after : forall k l ts n n', classify l = Some ts -> n_source n <> None -> consume_all k ts n [] = Accepted n' ->
  exists s, phrases s l /\ formats_known s /\ n' = apply s n.
Proof.
  induction k as [|k IH]; intros l ts n n' C N H; [discriminate|].
  destruct (before_option ts) as [seg rest] eqn:B. destruct (segs _ _ _ _ C B) as (F & O & E & SG).
  assert (seg = []).
  { cbn [consume_all] in H. rewrite B in H. destruct (n_source n) eqn:NS; [|congruence]. destruct seg as [|x seg]; [reflexivity|]. exfalso.
    destruct rest as [|[arg t] r]; [rewrite NS in H; discriminate|]. destruct t as [| |f]; try discriminate.
    destruct (consume arg f) as [|lo x0|lo a]; [discriminate| |].
    - destruct (take_options lo n); try discriminate. apply accepted_no_extras in H. discriminate.
    - destruct (takes_one a).
      + destruct r as [|[v [| |]] r']; try discriminate. destruct (take_options _ n); try discriminate. apply accepted_no_extras in H. discriminate.
      + destruct (take_options _ n); try discriminate. apply accepted_no_extras in H. discriminate. }
  subst seg. cbn [app] in E. subst ts.
  destruct SG as [(l2 & -> & _ & C2 & _)|(-> & a & b & -> & M & _)]; [|cbn in M; destruct a; discriminate].
  destruct rest as [|[arg t] r].
  - destruct l2 as [|x l2]; [|exfalso; clear - C2; cbn [classify] in C2; destruct (String.eqb x "--"); [discriminate|]; destruct (parse_optional x); [|discriminate]; destruct (classify l2); discriminate].
    rewrite consume_end in H by exact N. injection H as <-. exists []. split; [constructor|]. split; [intros v []|reflexivity].
  - destruct t as [| |f]; [discriminate O|discriminate O|].
    destruct (step _ _ _ _ _ _ _ C H) as (w & v & p & l' & r' & PH & E & C' & FM & H'). cbn [map app] in E. subst l2.
    destruct (IH _ _ (upd w v n) n' C' ltac:(destruct w; exact N) H') as (s & PS & FS & ->).
    exists ((w, v) :: s). split; [apply (one_more w v p s l'); auto|]. split; [|reflexivity]. intros x [X|X]; [injection X as -> ->; auto|auto].
Qed.
Lemma sound_before : forall k l ts n n', classify l = Some ts -> n_source n = None -> consume_all k ts n [] = Accepted n' ->
  exists s srcs, says l s srcs /\ formats_known s /\
    n' = {| n_format := n_format (apply s n); n_ini := n_ini (apply s n); n_ext := n_ext (apply s n); n_source := Some srcs |}.
Proof.
  induction k as [|k IH]; intros l ts n n' C N H; [discriminate|].
  destruct (before_option ts) as [seg rest] eqn:B. destruct (segs _ _ _ _ C B) as (F & O & E & SG). subst ts.
  destruct (has_arg seg) eqn:HA.
  - rewrite (block_run k seg rest n F O HA N) in H.
    destruct SG as [(l2 & -> & PL & C2 & _)|(-> & a & b & -> & M & PL & NE)].
    + assert (NN : n_source (set_source (map fst seg) n) <> None) by discriminate.
      destruct (sound_after _ _ _ _ _ C2 NN H) as (s & PS & FS & ->).
      exists s, (map fst seg). split; [|split; [exact FS|]].
      * exists [], s, [], (map fst seg), l2. split; [reflexivity|]. split; [reflexivity|]. split; [constructor|]. split; [exact PS|]. split; [destruct seg; discriminate|left; auto].
      * rewrite set_source_apply. unfold set_source. rewrite (remove_first_none _ (plain_not_dashes _ PL)). reflexivity.
    + rewrite consume_end in H by (cbn; discriminate). injection H as <-. exists [], (a ++ b). split; [|split; [intros v []|]].
      * exists [], [], [], (a ++ "--" :: b), []. split; [rewrite app_nil_r; reflexivity|]. split; [reflexivity|]. split; [constructor|]. split; [constructor|].
        split; [apply NE; reflexivity|]. right. split; [reflexivity|]. exists a, b. auto.
      * unfold set_source. rewrite M, (remove_first_at _ _ (plain_not_dashes _ PL)). reflexivity.
  - destruct rest as [|[arg t] r].
    { exfalso. cbn [consume_all] in H. rewrite app_nil_r in H. rewrite app_nil_r in B. rewrite B, N, HA in H. rewrite N in H. discriminate. }
    destruct t as [| |f]; [discriminate O|discriminate O|].
    destruct SG as [(l2 & -> & PL & C2 & NE)|(R & _)]; [|discriminate].
    assert (seg = []) by (destruct seg as [|y seg]; [reflexivity|]; exfalso; assert (X : false = true) by (apply NE; discriminate); discriminate X). subst seg. cbn [map app] in *.
    destruct (step _ _ _ _ _ _ _ C H) as (w & v & p & l' & r' & PH & E & C' & FM & H'). subst l2.
    destruct (IH _ _ (upd w v n) n' C' ltac:(destruct w; exact N) H') as (s & srcs & (s1 & s2 & bf & bl & af & -> & -> & P1 & P2 & S) & FS & ->).
    exists ((w, v) :: s1 ++ s2), srcs. split; [|split].
    + exists ((w, v) :: s1), s2, (p ++ bf), bl, af. split; [rewrite <- app_assoc; reflexivity|]. split; [reflexivity|]. split; [constructor; auto|]. split; [exact P2|exact S].
    + intros x [X|X]; [injection X as -> ->; auto|auto].
    + reflexivity.
Qed.
(** ** Meaning of a list of settings *)
Lemma apply_meaning : forall s n, Some (n_format (apply s n)) = last_of Format s (Some (n_format n)) /\ n_ini (apply s n) = last_of Ini s (n_ini n) /\
  Some (n_ext (apply s n)) = last_of Ext s (Some (n_ext n)).
Proof.
  induction s as [|[w v] s IH]; intros n; [auto|]. change (apply ((w, v) :: s) n) with (apply s (upd w v n)).
  destruct (IH (upd w v n)) as (A & B & C). rewrite A, B, C. destruct w; cbn [last_of upd n_format n_ini n_ext]; auto.
Qed.
Lemma never_stuck : forall k ts n ex, (length ts < k)%nat -> consume_all k ts n ex <> Stuck.
Proof.
  induction k as [|k IH]; intros ts n ex L; [lia|]. cbn [consume_all]. destruct (before_option ts) as [seg rest] eqn:B.
  assert (BO : length ts = (length seg + length rest)%nat /\ opt_first rest).
  { clear - B. revert seg rest B. induction ts as [|x ts IHt]; intros seg rest B; cbn in B; [injection B as <- <-; split; [reflexivity|exact I]|].
    destruct (is_opt (snd x)) eqn:O; [injection B as <- <-; split; [reflexivity|destruct x; exact O]|].
    destruct (before_option ts) as [a b]. injection B as <- <-. destruct (IHt _ _ eq_refl) as (LB & Q). split; [cbn [length]; lia|exact Q]. }
  destruct BO as (LB & O).
  set (n1 := if match n_source n with None => has_arg seg | Some _ => false end then _ else n). generalize n1. clear n1. intros n1.
  set (ex1 := if match n_source n with None => has_arg seg | Some _ => false end then ex else _). generalize ex1. clear ex1. intros ex1.
  assert (GO : forall l r x, (length r < length rest)%nat -> match take_options l n1 with Accepted n2 => consume_all k r n2 x | p => p end <> Stuck).
  { intros l r x LR. assert (TO : forall l n, take_options l n <> Stuck).
    { clear. induction l as [|[a v] l IHl]; intros n; [discriminate|]. cbn. destruct (take_option a v n) eqn:E; try discriminate; [apply IHl|].
      destruct a; cbn [take_option] in E; try discriminate. destruct (existsb (String.eqb v) FORMATS); discriminate. }
    specialize (TO l n1). destruct (take_options l n1); try congruence. apply IH. lia. }
  destruct rest as [|[arg t] r]; [destruct (n_source n1); [destruct ex1|]; discriminate|]. destruct t as [| |f]; [discriminate O|discriminate O|].
  destruct (consume arg f) as [|l x|l a]; [discriminate|apply GO; cbn; lia|].
  destruct (takes_one a); [|apply GO; cbn; lia]. destruct r as [|[v [| |]] r']; try discriminate. apply GO. cbn; lia.
Qed.
