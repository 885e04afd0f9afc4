(** * TextProofs: hexadecimal listings and UTF-8. *)
From Verif Require Import PyBase PyDict PyVal PyText BitsSpec BitsProofs MessageSpec EphSpec BaseSpec.
Local Open Scope string_scope.
Local Open Scope list_scope.
Local Open Scope Z_scope.

Lemma byte_check (P : Z -> bool) : forallb P (zrange 0 256) = true -> forall b, byte_ok b -> P b = true.
Proof.
  intros H b Hb. rewrite forallb_forall in H. apply H, zrange_In. unfold byte_ok in Hb. lia.
Qed.

Fixpoint zlist_eqb (a b : list Z) : bool :=
  match a, b with
  | [], [] => true
  | x :: a, y :: b => (x =? y) && zlist_eqb a b
  | _, _ => false
  end.
Lemma zlist_eqb_eq a : forall b, zlist_eqb a b = true <-> a = b.
Proof.
  induction a as [|x a IH]; intros [|y b]; cbn [zlist_eqb]; split; intros H; try congruence; try reflexivity.
  - apply andb_true_iff in H. destruct H as [H1 H2]. apply Z.eqb_eq in H1. apply IH in H2. congruence.
  - inversion H; subst. rewrite Z.eqb_refl. cbn. now apply IH.
Qed.

Lemma py_hex_ok b : byte_ok b -> py_hex b = hex_byte b.
Proof.
  intros H. apply zlist_eqb_eq. apply (byte_check (fun b => zlist_eqb (py_hex b) (hex_byte b)));
    [vm_compute; reflexivity|exact H].
Qed.

(** A listed byte: does not contain a space, does not start or end with white space, and is
    read back by int(s, 16). *)
Lemma hex_byte_facts b : byte_ok b ->
  (exists c r, hex_byte b = c :: r /\ is_space c = false) /\
  (exists r c, hex_byte b = r ++ [c] /\ is_space c = false) /\
  ~ In 32 (hex_byte b) /\ py_int16 (hex_byte b) = Ok b.
Proof.
  intros H.
  assert (E : (match hex_byte b with c :: _ => negb (is_space c) | [] => false end
               && negb (is_space (last (hex_byte b) 32)) && negb (existsb (Z.eqb 32) (hex_byte b))
               && match py_int16 (hex_byte b) with Ok v => v =? b | Err _ => false end) = true).
  { revert b H. apply byte_check. vm_compute. reflexivity. }
  rewrite !andb_true_iff, !negb_true_iff in E. destruct E as (((E1 & E2) & E3) & E4).
  split; [|split; [|split]].
  - destruct (hex_byte b) as [|c r]; [discriminate|]. exists c, r. now rewrite negb_true_iff in E1.
  - assert (NE : hex_byte b <> []) by (intros X; rewrite X in E1; discriminate).
    exists (removelast (hex_byte b)), (last (hex_byte b) 32).
    split; [now apply app_removelast_last|exact E2].
  - intros HI. rewrite <- not_true_iff_false in E3. apply E3. apply existsb_exists.
    exists 32. split; [exact HI|reflexivity].
  - destruct (py_int16 (hex_byte b)); [|discriminate]. apply Z.eqb_eq in E4. now subst.
Qed.

Lemma lstrip_nonspace c r : is_space c = false -> lstrip (c :: r) = c :: r.
Proof. intros H. cbn [lstrip]. now rewrite H. Qed.
Lemma rstrip_space s : rstrip (s ++ [32]) = rstrip s.
Proof. unfold rstrip. rewrite rev_app_distr. reflexivity. Qed.
Lemma rstrip_nonspace r c : is_space c = false -> rstrip (r ++ [c]) = r ++ [c].
Proof.
  intros H. unfold rstrip. rewrite rev_app_distr. change (rev [c] ++ rev r) with (c :: rev r).
  rewrite lstrip_nonspace by assumption. cbn [rev]. now rewrite rev_involutive.
Qed.

Lemma spaced_cons a b l : spaced (a :: b :: l) = a ++ [32] ++ spaced (b :: l).
Proof. reflexivity. Qed.

Lemma listing_trailing s : s <> [] ->
  flat_map (fun b => hex_byte b ++ [32]) s = spaced (map hex_byte s) ++ [32].
Proof.
  induction s as [|a s IH]; intros NE; [congruence|]. destruct s as [|b s].
  - cbn [flat_map map spaced]. now rewrite app_nil_r.
  - cbn [flat_map map]. cbn [flat_map map] in IH. rewrite spaced_cons, IH by congruence.
    now rewrite <- !app_assoc.
Qed.

Lemma spaced_last s : Forall byte_ok s -> s <> [] ->
  exists r c, spaced (map hex_byte s) = r ++ [c] /\ is_space c = false.
Proof.
  induction s as [|a s IH]; intros F NE; [congruence|]. inversion F; subst. destruct s as [|b s].
  - cbn [map spaced]. now apply hex_byte_facts.
  - destruct IH as (r & c & E & HC); [assumption|congruence|].
    cbn [map] in *. rewrite spaced_cons, E. exists (hex_byte a ++ [32] ++ r), c.
    split; [|exact HC]. now rewrite <- !app_assoc.
Qed.
Lemma spaced_first s : Forall byte_ok s -> s <> [] ->
  exists c r, spaced (map hex_byte s) = c :: r /\ is_space c = false.
Proof.
  intros F NE. destruct s as [|a s]; [congruence|]. inversion F as [|? ? Ha Fs]; subst.
  destruct (hex_byte_facts a Ha) as ((c & r & E & HC) & _).
  destruct s as [|b s]; cbn [map].
  - exists c, r. cbn [spaced]. auto.
  - rewrite spaced_cons, E. exists c, (r ++ [32] ++ spaced (hex_byte b :: map hex_byte s)). auto.
Qed.

Lemma strip_listing s : bytes_ok s ->
  py_strip (flat_map (fun b => py_hex b ++ [32]) s) = spaced (map hex_byte s).
Proof.
  intros F. replace (flat_map (fun b => py_hex b ++ [32]) s) with (flat_map (fun b => hex_byte b ++ [32]) s).
  2:{ induction F as [|b s Hb Fs IH]; [reflexivity|]. cbn [flat_map]. now rewrite IH, py_hex_ok. }
  destruct s as [|a s']; [reflexivity|]. set (s := a :: s') in *.
  assert (NE : s <> []) by (subst s; congruence).
  rewrite listing_trailing by assumption. unfold py_strip.
  destruct (spaced_first s F NE) as (c & r & E & HC).
  replace (lstrip (spaced (map hex_byte s) ++ [32])) with (spaced (map hex_byte s) ++ [32])
    by (rewrite E; cbn [app]; now rewrite lstrip_nonspace).
  rewrite rstrip_space. destruct (spaced_last s F NE) as (r' & c' & E' & HC').
  rewrite E'. now apply rstrip_nonspace.
Qed.

(** ** Splitting *)
Lemma py_split_nosep sep s : ~ In sep s -> py_split sep s = [s].
Proof.
  induction s as [|c s IH]; intros H; [reflexivity|]. cbn [py_split].
  rewrite IH by (intros X; apply H; now right).
  destruct (c =? sep) eqn:E; [|reflexivity]. exfalso. apply H. left. lia.
Qed.
Lemma py_split_cons sep a s : ~ In sep a -> py_split sep (a ++ sep :: s) = a :: py_split sep s.
Proof.
  induction a as [|c a IH]; intros H; cbn [app py_split].
  - rewrite Z.eqb_refl. destruct (py_split sep s) eqn:E; [|reflexivity].
    exfalso. clear -E. destruct s as [|c s]; [discriminate|]. cbn [py_split] in E.
    destruct (py_split sep s); [discriminate|]. destruct (c =? sep); discriminate.
  - rewrite IH by (intros X; apply H; now right).
    destruct (c =? sep) eqn:E; [|reflexivity]. exfalso. apply H. left. lia.
Qed.

Lemma split_spaced toks : toks <> [] -> Forall (fun t => ~ In 32 t) toks ->
  py_split 32 (spaced toks) = toks.
Proof.
  induction toks as [|a l IH]; intros NE F; [congruence|]. inversion F; subst. destruct l as [|b l].
  - cbn [spaced]. now apply py_split_nosep.
  - rewrite spaced_cons. cbn [app]. rewrite py_split_cons by assumption. f_equal.
    apply IH; [congruence|assumption].
Qed.

Lemma ints_of_listing s : bytes_ok s -> map_res py_int16 (map hex_byte s) = Ok s.
Proof.
  intros F. induction F as [|b s Hb Fs IH]; [reflexivity|]. cbn [map map_res].
  destruct (hex_byte_facts b Hb) as (_ & _ & _ & E). rewrite E. cbn [bind]. rewrite IH. reflexivity.
Qed.

Lemma split_listing s : bytes_ok s -> s <> [] ->
  py_split 32 (spaced (map hex_byte s)) = map hex_byte s.
Proof.
  intros F NE. apply split_spaced.
  - destruct s; [congruence|]. discriminate.
  - induction F as [|b s' Hb Fs IH]; [constructor|]. cbn [map]. constructor.
    + now apply hex_byte_facts.
    + destruct s'; [constructor|]. apply IH. congruence.
Qed.

Lemma py_bytes_ok s : bytes_ok s -> py_bytes s = Ok s.
Proof.
  intros F. unfold py_bytes. replace (forallb _ s) with true; [reflexivity|]. symmetry.
  apply forallb_forall. intros x Hx. unfold bytes_ok in F. rewrite Forall_forall in F.
  specialize (F x Hx). unfold byte_ok in F. lia.
Qed.

(** Distinct byte strings have distinct listings. *)
Lemma listing_inj s s' : bytes_ok s -> bytes_ok s' -> hex_listing s = hex_listing s' -> s = s'.
Proof.
  unfold hex_listing. intros F F' E. apply (f_equal (fun v => match v with VStr x => x | _ => [] end)) in E.
  assert (NE : forall s, bytes_ok s -> s <> [] -> spaced (map hex_byte s) <> []).
  { intros x Hx N X. destruct (spaced_first x Hx N) as (c & r & E' & _). congruence. }
  destruct s as [|a s].
  - destruct s' as [|b s']; [reflexivity|]. change (spaced (map hex_byte [])) with (@nil Z) in E.
    exfalso. apply (NE (b :: s') F'); [congruence|now symmetry].
  - destruct s' as [|b s']; [exfalso; apply (NE (a :: s) F); [congruence|exact E]|].
    assert (X : map hex_byte (a :: s) = map hex_byte (b :: s')).
    { rewrite <- (split_listing (a :: s)), <- (split_listing (b :: s')) by (assumption || congruence).
      now rewrite E. }
    pose proof (ints_of_listing _ F) as I1. pose proof (ints_of_listing _ F') as I2.
    rewrite X in I1. congruence.
Qed.

(** ** UTF-8 *)
Lemma utf8_decode_cons c rest : scalar_value c ->
  utf8_decode (utf8_char c ++ rest) = (s <- utf8_decode rest ;; Ok (c :: s)).
Proof.
  intros (R & NS). unfold utf8_char.
  destruct (c <? 0x80) eqn:E1; [|destruct (c <? 0x800) eqn:E2; [|destruct (c <? 0x10000) eqn:E3]];
    cbn [app utf8_decode]; unfold between, cont.
  - replace ((0 <=? c) && (c <=? 0x7F)) with true by lia. reflexivity.
  - replace ((0 <=? 0xC0 + c / 64) && (0xC0 + c / 64 <=? 0x7F)) with false by lia.
    replace ((0xC2 <=? 0xC0 + c / 64) && (0xC0 + c / 64 <=? 0xDF)) with true by lia.
    replace ((128 <=? 0x80 + c mod 64) && (0x80 + c mod 64 <=? 191)) with true by lia.
    replace (64 * (0xC0 + c / 64 - 0xC0) + (0x80 + c mod 64 - 128)) with c by lia. reflexivity.
  - set (a := 0xE0 + c / 4096). set (b := 0x80 + (c / 64) mod 64). set (d := 0x80 + c mod 64).
    assert (Ha : 0xE0 <= a <= 0xEF) by (subst a; lia).
    assert (Hb : 128 <= b <= 191) by (subst b; lia).
    assert (Hd : 128 <= d <= 191) by (subst d; lia).
    assert (EC : c = 4096 * (a - 0xE0) + 64 * (b - 128) + (d - 128)) by (subst a b d; lia).
    clearbody a b d.
    replace ((0 <=? a) && (a <=? 0x7F)) with false by lia.
    replace ((0xC2 <=? a) && (a <=? 0xDF)) with false by lia.
    replace ((0xE0 <=? a) && (a <=? 0xEF)) with true by lia.
    replace ((if a =? 0xE0 then (0xA0 <=? b) && (b <=? 0xBF)
              else if a =? 0xED then (0x80 <=? b) && (b <=? 0x9F) else (128 <=? b) && (b <=? 191))
             && ((128 <=? d) && (d <=? 191))) with true.
    + rewrite <- EC. reflexivity.
    + symmetry. destruct (a =? 0xE0) eqn:EA; [lia|]. destruct (a =? 0xED) eqn:ED; lia.
  - set (a := 0xF0 + c / 262144). set (b := 0x80 + (c / 4096) mod 64).
    set (d := 0x80 + (c / 64) mod 64). set (e := 0x80 + c mod 64).
    assert (Ha : 0xF0 <= a <= 0xF4) by (subst a; lia).
    assert (Hb : 128 <= b <= 191) by (subst b; lia).
    assert (Hd : 128 <= d <= 191) by (subst d; lia).
    assert (He : 128 <= e <= 191) by (subst e; lia).
    assert (EC : c = 262144 * (a - 0xF0) + 4096 * (b - 128) + 64 * (d - 128) + (e - 128))
      by (subst a b d e; lia).
    clearbody a b d e.
    replace ((0 <=? a) && (a <=? 0x7F)) with false by lia.
    replace ((0xC2 <=? a) && (a <=? 0xDF)) with false by lia.
    replace ((0xE0 <=? a) && (a <=? 0xEF)) with false by lia.
    replace ((0xF0 <=? a) && (a <=? 0xF4)) with true by lia.
    replace ((if a =? 0xF0 then (0x90 <=? b) && (b <=? 0xBF)
              else if a =? 0xF4 then (0x80 <=? b) && (b <=? 0x8F) else (128 <=? b) && (b <=? 191))
             && ((128 <=? d) && (d <=? 191)) && ((128 <=? e) && (e <=? 191))) with true.
    + rewrite <- EC. reflexivity.
    + symmetry. destruct (a =? 0xF0) eqn:EA; [lia|]. destruct (a =? 0xF4) eqn:ED; lia.
Qed.

Lemma utf8_decode_encode text : unicode text -> utf8_decode (utf8 text) = Ok text.
Proof.
  intros U. induction U as [|c t Hc Ht IH]; [reflexivity|]. unfold utf8. cbn [flat_map].
  rewrite utf8_decode_cons by assumption. fold (utf8 t). now rewrite IH.
Qed.

Lemma utf8_decode_inv n : forall b text, (length b <= n)%nat -> utf8_decode b = Ok text ->
  b = utf8 text /\ unicode text.
Proof.
  induction n as [|n IH]; intros b text L H.
  - destruct b; [|cbn in L; lia]. inversion H. split; [reflexivity|constructor].
  - destruct b as [|a r]; [inversion H; split; [reflexivity|constructor]|].
    cbn [utf8_decode] in H. cbn [length] in L.
    assert (K : forall c x pre rest, utf8_decode rest = Ok x -> (length rest <= n)%nat ->
       scalar_value c -> utf8_char c = pre -> pre ++ rest = utf8 (c :: x) /\ unicode (c :: x)).
    { intros c x pre rest D LR SC EC. destruct (IH rest x LR D) as [-> U].
      unfold utf8. cbn [flat_map]. rewrite EC. split; [reflexivity|now constructor]. }
    unfold between, cont in H.
    destruct ((0 <=? a) && (a <=? 0x7F)) eqn:E1.
    { apply bind_ok in H. destruct H as (x & D & E). inversion E; subst.
      apply (K a x [a] r D); [lia|unfold scalar_value; lia|]. unfold utf8_char.
      replace (a <? 0x80) with true by lia. reflexivity. }
    destruct ((0xC2 <=? a) && (a <=? 0xDF)) eqn:E2.
    { destruct r as [|b r]; [discriminate|].
      destruct ((128 <=? b) && (b <=? 191)) eqn:EB; [|discriminate].
      apply bind_ok in H. destruct H as (x & D & E). apply (f_equal (fun r => match r with Ok v => v | _ => [] end)) in E.
      subst text. cbn [length] in L.
      apply (K _ x [a; b] r D); [lia|unfold scalar_value; lia|]. unfold utf8_char.
      set (c := 64 * (a - 0xC0) + (b - 128)).
      assert (C1 : c / 64 = a - 0xC0) by (subst c; lia). assert (C2 : c mod 64 = b - 128) by (subst c; lia).
      replace (c <? 0x80) with false by (subst c; lia). replace (c <? 0x800) with true by (subst c; lia).
      rewrite C1, C2. f_equal; [lia|f_equal; lia]. }
    destruct ((0xE0 <=? a) && (a <=? 0xEF)) eqn:E3.
    { destruct r as [|b [|c r]]; try discriminate. cbn [length] in L.
      destruct ((if a =? 0xE0 then _ else _) && _) eqn:EB; [|discriminate].
      apply andb_true_iff in EB. destruct EB as [EB EC].
      assert (HB : 128 <= b <= 191 /\ (a = 0xE0 -> 0xA0 <= b) /\ (a = 0xED -> b <= 0x9F)).
      { destruct (a =? 0xE0) eqn:EA; [lia|]. destruct (a =? 0xED) eqn:EA'; lia. }
      assert (HC : 128 <= c <= 191) by lia. clear EB EC E1 E2.
      apply bind_ok in H. destruct H as (x & D & E). apply (f_equal (fun r => match r with Ok v => v | _ => [] end)) in E.
      subst text.
      set (w := 4096 * (a - 0xE0) + 64 * (b - 128) + (c - 128)).
      assert (W1 : w / 4096 = a - 0xE0) by (subst w; lia).
      assert (W2 : (w / 64) mod 64 = b - 128) by (subst w; lia).
      assert (W3 : w mod 64 = c - 128) by (subst w; lia).
      assert (W4 : 0x800 <= w < 0x10000) by (subst w; lia).
      assert (W5 : ~ (0xD800 <= w <= 0xDFFF)) by (subst w; lia).
      apply (K w x [a; b; c] r D); [lia|unfold scalar_value; lia|]. clearbody w. unfold utf8_char.
      replace (w <? 0x80) with false by lia. replace (w <? 0x800) with false by lia.
      replace (w <? 0x10000) with true by lia.
      rewrite W1, W2, W3. f_equal; [lia|f_equal; [lia|f_equal; lia]]. }
    destruct ((0xF0 <=? a) && (a <=? 0xF4)) eqn:E4; [|discriminate].
    destruct r as [|b [|c [|d r]]]; try discriminate. cbn [length] in L.
    destruct ((if a =? 0xF0 then _ else _) && _ && _) eqn:EB; [|discriminate].
    rewrite !andb_true_iff in EB. destruct EB as [[EB EC] ED].
    assert (HB : 128 <= b <= 191 /\ (a = 0xF0 -> 0x90 <= b) /\ (a = 0xF4 -> b <= 0x8F)).
    { destruct (a =? 0xF0) eqn:EA; [lia|]. destruct (a =? 0xF4) eqn:EA'; lia. }
    assert (HC : 128 <= c <= 191) by lia. assert (HD : 128 <= d <= 191) by lia.
    clear EB EC ED E1 E2 E3.
    apply bind_ok in H. destruct H as (x & D & E). apply (f_equal (fun r => match r with Ok v => v | _ => [] end)) in E.
    subst text.
    set (w := 262144 * (a - 0xF0) + 4096 * (b - 128) + 64 * (c - 128) + (d - 128)).
    assert (W0 : w / 262144 = a - 0xF0) by (subst w; lia).
    assert (W1 : (w / 4096) mod 64 = b - 128) by (subst w; lia).
    assert (W2 : (w / 64) mod 64 = c - 128) by (subst w; lia).
    assert (W3 : w mod 64 = d - 128) by (subst w; lia).
    assert (W4 : 0x10000 <= w <= 0x10FFFF) by (subst w; lia).
    apply (K w x [a; b; c; d] r D); [lia|unfold scalar_value; lia|]. clearbody w. unfold utf8_char.
    replace (w <? 0x80) with false by lia. replace (w <? 0x800) with false by lia.
    replace (w <? 0x10000) with false by lia.
    rewrite W0, W1, W2, W3. f_equal; [lia|f_equal; [lia|f_equal; [lia|f_equal; lia]]].
Qed.

Lemma utf8_decode_iff b text : utf8_decode b = Ok text <-> b = utf8 text /\ unicode text.
Proof.
  split; [intros H; now apply (utf8_decode_inv (length b))|].
  intros [-> U]. now apply utf8_decode_encode.
Qed.

Lemma utf8_bytes text : unicode text -> bytes_ok (utf8 text).
Proof.
  intros U. induction U as [|c t [Hc NS] Ht IH]; [constructor|]. unfold utf8. cbn [flat_map].
  apply bytes_ok_app. split; [|exact IH]. unfold utf8_char.
  destruct (c <? 0x80) eqn:E1; [|destruct (c <? 0x800) eqn:E2; [|destruct (c <? 0x10000) eqn:E3]];
    repeat constructor; unfold byte_ok; lia.
Qed.
