(** * JsonProofs: what [json.dumps] writes is JSON for the same value. *)
From Coq Require Import ZArith Psatz Lia SpecFloat.
From Flocq Require Import BinarySingleNaN.
From Verif Require Import PyBase PyFloat PyFormat PyVal PyJson JsonSpec FormatSpec FormatProofs JsonNumbers.
Local Open Scope list_scope.
Local Open Scope Z_scope.

(** Induction over nested values. *)
Section Ind.
Context (P : pyval -> Prop).
Context (HN : P VNone) (HB : forall b, P (VBool b)) (HI : forall z, P (VInt z)) (HF : forall x, P (VFloat x))
  (HS : forall s, P (VStr s)) (HL : forall l, Forall P l -> P (VList l)) (HT : forall l, Forall P l -> P (VTuple l))
  (HD : forall d, Forall (fun kv => P (snd kv)) d -> P (VDict d)).
Fixpoint pyval_ind' (v : pyval) : P v :=
  let list_ind := fix go (l : list pyval) : Forall P l :=
    match l with [] => Forall_nil _ | x :: r => Forall_cons x (pyval_ind' x) (go r) end in
  match v with
  | VNone => HN | VBool b => HB b | VInt z => HI z | VFloat x => HF x | VStr s => HS s
  | VList l => HL l (list_ind l)
  | VTuple l => HT l (list_ind l)
  | VDict d => HD d ((fix go (d : list (pyval * pyval)) : Forall (fun kv => P (snd kv)) d :=
      match d with [] => Forall_nil _ | x :: r => Forall_cons x (pyval_ind' (snd x)) (go r) end) d)
  end.
End Ind.

(** What can follow a value. *)
Definition stop (rest : list Z) : Prop :=
  match rest with [] => True | c :: _ => is_ws c = true \/ c = 44 \/ c = 93 \/ c = 125 end.
Lemma stop_ends rest : stop rest -> ends rest.
Proof.
  destruct rest as [|c r]; [trivial|]. cbn. unfold is_ws, is_digit. intros [H|H].
  - repeat (apply orb_prop in H; destruct H as [H|H]); apply Z.eqb_eq in H; subst c;
      (split; [reflexivity|lia]).
  - destruct H as [H|[H|H]]; subst c; (split; [reflexivity|lia]).
Qed.

Definition ws_only (w : list Z) : Prop := Forall (fun c => is_ws c = true) w.
Lemma newline_ws ind lvl : ws_only (newline ind lvl).
Proof.
  destruct ind as [i|]; cbn [newline]; [|constructor]. constructor; [reflexivity|].
  apply Forall_repeat. reflexivity.
Qed.
Lemma item_sep_eq ind lvl : exists w, item_sep ind lvl = 44 :: w /\ ws_only w.
Proof.
  destruct ind as [i|]; cbn [item_sep].
  - eexists; split; [reflexivity|apply newline_ws].
  - exists [32]. split; [reflexivity|]. constructor; [reflexivity|constructor].
Qed.
Lemma skip_ws_app w c r : ws_only w -> is_ws c = false -> skip_ws (w ++ c :: r) = c :: r.
Proof.
  intros W C. induction W as [|x l H W IH]; cbn [app skip_ws]; [now rewrite C|now rewrite H].
Qed.
Lemma skip_ws_none w : ws_only w -> skip_ws w = [].
Proof. intros W. induction W as [|x l H W IH]; cbn [skip_ws]; [reflexivity|now rewrite H]. Qed.
Lemma ws_stop w c r : ws_only w -> stop (c :: r) -> stop (w ++ c :: r).
Proof. intros W S. destruct W as [|x l H W]; [exact S|]. cbn. now left. Qed.

(** ** Strings *)
Lemma hex_digit d : 0 <= d < 16 -> hex_value (if d <? 10 then 48 + d else 87 + d) = Some d.
Proof.
  intros D. assert (H : In d [0;1;2;3;4;5;6;7;8;9;10;11;12;13;14;15]) by (cbn; lia).
  cbn in H. repeat (destruct H as [<-|H]; [reflexivity|]). destruct H.
Qed.

Lemma take_string_text s : forall fuel rest, text_ok s -> (length (flat_map json_char s) < fuel)%nat ->
  take_string fuel (flat_map json_char s ++ 34 :: rest) = Some (s, rest).
Proof.
  induction s as [|c s IH]; intros fuel rest T L.
  - destruct fuel; [lia|]. reflexivity.
  - inversion T as [|? ? C T']; subst. cbn [flat_map] in L. rewrite app_length in L.
    destruct fuel as [|fuel]; [lia|]. cbn [flat_map]. rewrite <- app_assoc.
    unfold json_char in *.
    destruct (Z.eqb_spec c 34) as [->|N34]; [cbn [app length] in *; cbn; rewrite IH by (assumption || lia); reflexivity|].
    destruct (Z.eqb_spec c 92) as [->|N92]; [cbn [app length] in *; cbn; rewrite IH by (assumption || lia); reflexivity|].
    destruct (Z.eqb_spec c 10) as [->|N10]; [cbn [app length] in *; cbn; rewrite IH by (assumption || lia); reflexivity|].
    destruct (Z.eqb_spec c 13) as [->|N13]; [cbn [app length] in *; cbn; rewrite IH by (assumption || lia); reflexivity|].
    destruct (Z.eqb_spec c 9) as [->|N9]; [cbn [app length] in *; cbn; rewrite IH by (assumption || lia); reflexivity|].
    destruct (Z.eqb_spec c 12) as [->|N12]; [cbn [app length] in *; cbn; rewrite IH by (assumption || lia); reflexivity|].
    destruct (Z.eqb_spec c 8) as [->|N8]; [cbn [app length] in *; cbn; rewrite IH by (assumption || lia); reflexivity|].
    destruct (Z.ltb_spec c 32) as [LT|GE].
    + unfold hex4 in *. cbn [app length take_string] in *.
      change (92 =? 34) with false. change (92 =? 92) with true. cbn [Z.eqb]. 
      replace (117 =? 34) with false by reflexivity. cbn [Z.eqb Pos.eqb take_hex4].
      assert (DV : c / 4096 mod 16 = 0 /\ c / 256 mod 16 = 0).
      { rewrite (Z.div_small c 4096), (Z.div_small c 256) by lia. split; reflexivity. }
      destruct DV as (-> & ->).
      rewrite !hex_digit by (first [apply Z.mod_pos_bound; lia|lia]).
      replace (((0 * 16 + 0) * 16 + c / 16 mod 16) * 16 + c mod 16) with c.
      2:{ rewrite (Z.mod_small (c / 16) 16) by (split; [apply Z.div_pos; lia|apply Z.div_lt_upper_bound; lia]).
          pose proof (Z.div_mod c 16 ltac:(lia)). lia. }
      assert (X : (55296 <=? c) = false) by (apply Z.leb_gt; lia). rewrite X. cbn [andb].
      rewrite IH by (assumption || lia). reflexivity.
    + cbn [app length take_string] in *.
      assert (X1 : (c =? 34) = false) by now apply Z.eqb_neq.
      assert (X2 : (c =? 92) = false) by now apply Z.eqb_neq.
      assert (X3 : (c <? 32) = false) by now apply Z.ltb_ge.
      rewrite X1, X2, X3, IH by (assumption || lia). reflexivity.
Qed.

(** ** Numbers start with a sign or a digit *)
Lemma take_number_head s r : take_number s = Some r -> exists c t, s = c :: t /\ (c = 45 \/ 48 <= c <= 57).
Proof.
  destruct s as [|c t]; [discriminate|]. intros H. exists c, t. split; [reflexivity|].
  destruct (Z.eq_dec c 45) as [|N]; [now left|]. right. unfold take_number in H.
  rewrite eat_no in H by exact N. cbn [take_digits] in H.
  destruct (is_digit c) eqn:D; [|discriminate H]. unfold is_digit in D.
  apply andb_prop in D. destruct D as (D1 & D2). apply Z.leb_le in D1, D2. lia.
Qed.
Lemma value_number fuel s r : take_number s = Some r -> (0 < fuel)%nat -> value fuel s = Some r.
Proof.
  intros H F. destruct (take_number_head s r H) as (c & t & -> & C). destruct fuel as [|fuel]; [lia|]. cbn [value].
  assert (N : forall k, k <> 45 -> (k < 48 \/ 57 < k) -> (c =? k) = false) by (intros; apply Z.eqb_neq; lia).
  rewrite !N by lia. exact H.
Qed.

(** ** Values *)
Definition head_ok (t : list Z) : Prop :=
  match t with [] => False | c :: _ => is_ws c = false /\ c <> 93 /\ c <> 125 end.
Lemma number_head_ok c t : c = 45 \/ 48 <= c <= 57 -> head_ok (c :: t).
Proof.
  intros C. cbn. unfold is_ws. split; [|lia].
  assert (N : forall k, k <> 45 -> (k < 48 \/ 57 < k) -> (c =? k) = false) by (intros; apply Z.eqb_neq; lia).
  rewrite !N by lia. reflexivity.
Qed.

Lemma text_head ind lvl v : clean v -> head_ok (json_text ind lvl v).
Proof.
  destruct v as [|b|z|x|s|l|l|d]; intros C; cbn [json_text].
  - cbn. split; [reflexivity|lia].
  - destruct b; (cbn; split; [reflexivity|lia]).
  - pose proof (int_reads z [] Logic.I) as R. rewrite app_nil_r in R.
    destruct (take_number_head _ _ R) as (c & t & -> & H). now apply number_head_ok.
  - destruct C as (F & V). pose proof (float_reads x [] F V Logic.I) as R. rewrite app_nil_r in R.
    destruct (take_number_head _ _ R) as (c & t & -> & H). now apply number_head_ok.
  - cbn. split; [reflexivity|lia].
  - destruct (map _ l); cbn; (split; [reflexivity|lia]).
  - destruct (map _ l); cbn; (split; [reflexivity|lia]).
  - destruct (map _ d); cbn; (split; [reflexivity|lia]).
Qed.

Definition reads (v : pyval) : Prop :=
  forall ind lvl fuel rest, clean v -> (length (json_text ind lvl v) <= fuel)%nat -> stop rest ->
    value fuel (json_text ind lvl v ++ rest) = Some (jv_of v, rest).

Lemma head_skip ind lvl v w rest : clean v -> ws_only w ->
  skip_ws (w ++ json_text ind lvl v ++ rest) = json_text ind lvl v ++ rest.
Proof.
  intros C W. pose proof (text_head ind lvl v C) as H. destruct (json_text ind lvl v) as [|c t]; [destruct H|].
  cbn [app]. apply skip_ws_app; [exact W|apply H].
Qed.

Lemma elements_text ind lvl l : Forall reads l -> fold_right (fun x p => clean x /\ p) True l -> l <> [] ->
  forall fuel w rest, ws_only w ->
    (length (join (item_sep ind lvl) (map (json_text ind lvl) l)) < fuel)%nat ->
    elements fuel (join (item_sep ind lvl) (map (json_text ind lvl) l) ++ w ++ 93 :: rest) = Some (map jv_of l, rest).
Proof.
  induction l as [|v l IH]; intros R C NE fuel w rest W L; [congruence|]. clear NE.
  inversion R as [|? ? Rv Rl]; subst. destruct C as (Cv & Cl). destruct fuel as [|fuel]; [lia|]. cbn [elements].
  destruct (item_sep_eq ind lvl) as (ws & SE & WS).
  destruct l as [|v' l].
  - cbn [map join] in *. rewrite Rv; [|exact Cv|lia|apply ws_stop; [exact W|cbn; lia]].
    rewrite skip_ws_app by (exact W || reflexivity). rewrite eat_no by lia. rewrite eat_yes. reflexivity.
  - assert (J : join (item_sep ind lvl) (map (json_text ind lvl) (v :: v' :: l)) =
                json_text ind lvl v ++ 44 :: ws ++ join (item_sep ind lvl) (map (json_text ind lvl) (v' :: l)))
      by (cbn [map join]; rewrite SE; reflexivity).
    rewrite J in *. clear J. rewrite !app_length in L. cbn [length] in L. rewrite app_length in L.
    rewrite <- app_assoc. cbn [app]. rewrite <- app_assoc. rewrite Rv; [|exact Cv|lia|cbn; lia].
    replace (skip_ws (44 :: ws ++ join (item_sep ind lvl) (map (json_text ind lvl) (v' :: l)) ++ w ++ 93 :: rest))
      with (44 :: ws ++ join (item_sep ind lvl) (map (json_text ind lvl) (v' :: l)) ++ w ++ 93 :: rest) by reflexivity.
    rewrite eat_yes.
    assert (SK : skip_ws (ws ++ join (item_sep ind lvl) (map (json_text ind lvl) (v' :: l)) ++ w ++ 93 :: rest) =
                 join (item_sep ind lvl) (map (json_text ind lvl) (v' :: l)) ++ w ++ 93 :: rest).
    { destruct Cl as (Cv' & _). destruct l as [|v'' l]; cbn [map join]; [now apply head_skip|].
      rewrite <- app_assoc. now apply head_skip. }
    rewrite SK. rewrite IH; [reflexivity|exact Rl|exact Cl|discriminate|exact W|].
    pose proof (text_head ind lvl v Cv) as H. destruct (json_text ind lvl v); [destruct H|cbn [length] in L; lia].
Qed.

Definition member_text (ind : option Z) (lvl : Z) (kv : pyval * pyval) : list Z :=
  let (k, x) := kv in json_str (match json_key k with Some s => s | None => [] end) ++ [58; 32] ++ json_text ind lvl x.
Lemma key_ok_text k : key_ok k -> json_key k = Some (key_text k) /\ text_ok (key_text k).
Proof.
  destruct k; cbn; try contradiction; intros K; (split; [reflexivity|]); [|exact K].
  unfold py_int_str. destruct (Z.ltb_spec z 0).
  - constructor; [lia|]. destruct (py_digits_spec (- z) ltac:(lia)) as (F & _).
    eapply Forall_impl; [|exact F]. unfold digit. intros; lia.
  - destruct (py_digits_spec z ltac:(lia)) as (F & _).
    eapply Forall_impl; [|exact F]. unfold digit. intros; lia.
Qed.

Lemma members_text ind lvl d : Forall (fun kv => reads (snd kv)) d ->
  fold_right (fun kv p => match kv with (k, x) => (key_ok k /\ clean x) /\ p end) True d -> d <> [] ->
  forall fuel w rest, ws_only w ->
    (length (join (item_sep ind lvl) (map (member_text ind lvl) d)) < fuel)%nat ->
    members fuel (join (item_sep ind lvl) (map (member_text ind lvl) d) ++ w ++ 125 :: rest) =
    Some (map (fun kv => match kv with (k, x) => (key_text k, jv_of x) end) d, rest).
Proof.
  induction d as [|[k v] d IH]; intros R C NE fuel w rest W L; [congruence|]. clear NE.
  inversion R as [|? ? Rv Rl]; subst. cbn [snd] in Rv. destruct C as ((Ck & Cv) & Cl).
  destruct fuel as [|fuel]; [lia|]. cbn [members].
  destruct (item_sep_eq ind lvl) as (ws & SE & WS). destruct (key_ok_text k Ck) as (KT & TK).
  assert (M : member_text ind lvl (k, v) = 34 :: flat_map json_char (key_text k) ++ 34 :: 58 :: 32 :: json_text ind lvl v).
  { unfold member_text. rewrite KT. unfold json_str. cbn [app]. rewrite <- app_assoc. reflexivity. }
  assert (ML : length (member_text ind lvl (k, v)) = (4 + length (flat_map json_char (key_text k)) + length (json_text ind lvl v))%nat).
  { rewrite M. cbn [length]. rewrite app_length. cbn [length]. lia. }
  assert (HH : skip_ws (32 :: json_text ind lvl v) = json_text ind lvl v).
  { change (32 :: json_text ind lvl v) with ([32] ++ json_text ind lvl v).
    rewrite <- (app_nil_r (json_text ind lvl v)). apply head_skip; [exact Cv|]. constructor; [reflexivity|constructor]. }
  assert (G : forall tail, stop tail -> (length (member_text ind lvl (k, v)) <= fuel)%nat ->
    match eat 34 (member_text ind lvl (k, v) ++ tail) with
    | None => None
    | Some r => match take_string fuel r with
      | None => None
      | Some (k0, t) => match eat 58 (skip_ws t) with
        | None => None
        | Some t => match value fuel (skip_ws t) with None => None | Some (x, t) => Some (k0, x, t) end
        end end end = Some (key_text k, jv_of v, tail)).
  { intros tail ST LE. rewrite M. cbn [app]. rewrite <- app_assoc. cbn [app]. rewrite eat_yes.
    rewrite take_string_text; [|exact TK|lia]. cbn [skip_ws is_ws]. change (is_ws 58) with false. cbv iota. rewrite eat_yes.
    change (32 :: json_text ind lvl v ++ tail) with ([32] ++ json_text ind lvl v ++ tail).
    rewrite head_skip; [|exact Cv|constructor; [reflexivity|constructor]]. rewrite Rv; [reflexivity|exact Cv|lia|exact ST]. }
  assert (G' : forall tail, stop tail -> (length (member_text ind lvl (k, v)) <= fuel)%nat ->
    members (S fuel) (member_text ind lvl (k, v) ++ tail) =
    match eat 44 (skip_ws tail) with
    | Some t => match members fuel (skip_ws t) with
                | Some (d, t) => Some ((key_text k, jv_of v) :: d, t)
                | None => None
                end
    | None => option_map (fun t => ([(key_text k, jv_of v)], t)) (eat 125 (skip_ws tail))
    end).
  { intros tail ST LE. specialize (G tail ST LE). cbn [members].
    destruct (eat 34 (member_text ind lvl (k, v) ++ tail)) as [r|]; [|discriminate G].
    destruct (take_string fuel r) as [[k0 t]|]; [|discriminate G].
    destruct (eat 58 (skip_ws t)) as [t'|]; [|discriminate G].
    destruct (value fuel (skip_ws t')) as [[x t'']|]; [|discriminate G].
    injection G as <- <- <-. reflexivity. }
  change (members (S fuel) (join (item_sep ind lvl) (map (member_text ind lvl) ((k, v) :: d)) ++ w ++ 125 :: rest) = 
     Some (map (fun kv => match kv with (k, x) => (key_text k, jv_of x) end) ((k, v) :: d), rest)).
  destruct d as [|kv' d].
  - cbn [map join] in *. rewrite G'; [|apply ws_stop; [exact W|cbn; lia]|lia].
    rewrite skip_ws_app by (exact W || reflexivity). rewrite eat_no by lia. rewrite eat_yes. reflexivity.
  - assert (J : join (item_sep ind lvl) (map (member_text ind lvl) ((k, v) :: kv' :: d)) =
                member_text ind lvl (k, v) ++ 44 :: ws ++ join (item_sep ind lvl) (map (member_text ind lvl) (kv' :: d)))
      by (cbn [map join]; rewrite SE; reflexivity).
    rewrite J in *. clear J. rewrite !app_length in L. cbn [length] in L. rewrite app_length in L.
    rewrite <- app_assoc. cbn [app]. rewrite <- app_assoc. rewrite G'; [|cbn; lia|lia].
    replace (skip_ws (44 :: ws ++ join (item_sep ind lvl) (map (member_text ind lvl) (kv' :: d)) ++ w ++ 125 :: rest))
      with (44 :: ws ++ join (item_sep ind lvl) (map (member_text ind lvl) (kv' :: d)) ++ w ++ 125 :: rest) by reflexivity.
    rewrite eat_yes.
    assert (SK : skip_ws (ws ++ join (item_sep ind lvl) (map (member_text ind lvl) (kv' :: d)) ++ w ++ 125 :: rest) =
                 join (item_sep ind lvl) (map (member_text ind lvl) (kv' :: d)) ++ w ++ 125 :: rest).
    { assert (HM : forall x, exists t, member_text ind lvl x = 34 :: t) by (intros [k0 x0]; eexists; reflexivity).
      destruct (HM kv') as (t & E). destruct d as [|kv'' d]; cbn [map join]; rewrite E; cbn [app]; now apply skip_ws_app. }
    rewrite SK. rewrite IH; [reflexivity|exact Rl|exact Cl|discriminate|exact W|lia].
Qed.

Theorem text_reads : forall v, reads v.
Proof.
  apply pyval_ind'.
  - intros ind lvl fuel rest _ L S. destruct fuel as [|fuel]; [cbn in L; lia|]. reflexivity.
  - intros b ind lvl fuel rest _ L S. destruct fuel as [|fuel]; [destruct b; cbn in L; lia|]. destruct b; reflexivity.
  - intros z ind lvl fuel rest _ L S. cbn [json_text jv_of] in *. apply value_number; [apply int_reads; now apply stop_ends|].
    pose proof (text_head ind lvl (VInt z) Logic.I) as H. cbn [json_text] in H. destruct (py_int_str z); [destruct H|cbn in L; lia].
  - intros x ind lvl fuel rest C L S. pose proof (text_head ind lvl (VFloat x) C) as H. destruct C as (F & V). cbn [json_text jv_of] in *.
    apply value_number; [apply float_reads; [exact F|exact V|now apply stop_ends]|].
    destruct (json_float x); [destruct H|cbn in L; lia].
  - intros s ind lvl fuel rest C L S. cbn [json_text jv_of clean] in *. unfold json_str in *. cbn [app length] in *.
    destruct fuel as [|fuel]; [lia|]. rewrite app_length in L. cbn [length] in L. rewrite <- app_assoc. cbn [app].
    cbn [value]. change (34 =? 123) with false. change (34 =? 91) with false. change (34 =? 34) with true. cbv iota.
    rewrite take_string_text; [reflexivity|exact C|lia].
  - intros l R ind lvl fuel rest C L S. cbn [clean] in C.
    destruct l as [|v l]; [destruct fuel as [|fuel]; [cbn in L; lia|reflexivity]|].
    destruct fuel as [|fuel]; [cbn in L; lia|].
    assert (T : json_text ind lvl (VList (v :: l)) =
      91 :: newline ind (lvl + 1) ++ join (item_sep ind (lvl + 1)) (map (json_text ind (lvl + 1)) (v :: l)) ++ newline ind lvl ++ [93]) by reflexivity.
    rewrite T in *. clear T. cbn [length] in L. rewrite !app_length in L. cbn [length] in L. cbn [app]. rewrite <- !app_assoc. cbn [app].
    assert (SK : skip_ws (newline ind (lvl + 1) ++ join (item_sep ind (lvl + 1)) (map (json_text ind (lvl + 1)) (v :: l)) ++ newline ind lvl ++ 93 :: rest) =
      join (item_sep ind (lvl + 1)) (map (json_text ind (lvl + 1)) (v :: l)) ++ newline ind lvl ++ 93 :: rest /\
      head_ok (join (item_sep ind (lvl + 1)) (map (json_text ind (lvl + 1)) (v :: l)))).
    { destruct C as (Cv & _). pose proof (text_head ind (lvl + 1) v Cv) as H. pose proof (newline_ws ind (lvl + 1)) as W.
      destruct l as [|v'' l]; cbn [map join]; [split; [now apply head_skip|exact H]|].
      split; [rewrite <- app_assoc; now apply head_skip|].
      destruct (json_text ind (lvl + 1) v); [destruct H|exact H]. }
    cbn [value]. change (91 =? 123) with false. change (91 =? 91) with true. cbv iota.
    destruct SK as (-> & HD). rewrite eat_no.
    2:{ destruct (join (item_sep ind (lvl + 1)) (map (json_text ind (lvl + 1)) (v :: l))); [destruct HD|apply HD]. }
    rewrite elements_text; [reflexivity|exact R|exact C|discriminate|apply newline_ws|lia].
  - intros l R ind lvl fuel rest C L S. cbn [clean] in C.
    destruct l as [|v l]; [destruct fuel as [|fuel]; [cbn in L; lia|reflexivity]|].
    destruct fuel as [|fuel]; [cbn in L; lia|].
    assert (T : json_text ind lvl (VTuple (v :: l)) =
      91 :: newline ind (lvl + 1) ++ join (item_sep ind (lvl + 1)) (map (json_text ind (lvl + 1)) (v :: l)) ++ newline ind lvl ++ [93]) by reflexivity.
    rewrite T in *. clear T. cbn [length] in L. rewrite !app_length in L. cbn [length] in L. cbn [app]. rewrite <- !app_assoc. cbn [app].
    assert (SK : skip_ws (newline ind (lvl + 1) ++ join (item_sep ind (lvl + 1)) (map (json_text ind (lvl + 1)) (v :: l)) ++ newline ind lvl ++ 93 :: rest) =
      join (item_sep ind (lvl + 1)) (map (json_text ind (lvl + 1)) (v :: l)) ++ newline ind lvl ++ 93 :: rest /\
      head_ok (join (item_sep ind (lvl + 1)) (map (json_text ind (lvl + 1)) (v :: l)))).
    { destruct C as (Cv & _). pose proof (text_head ind (lvl + 1) v Cv) as H. pose proof (newline_ws ind (lvl + 1)) as W.
      destruct l as [|v'' l]; cbn [map join]; [split; [now apply head_skip|exact H]|].
      split; [rewrite <- app_assoc; now apply head_skip|].
      destruct (json_text ind (lvl + 1) v); [destruct H|exact H]. }
    cbn [value]. change (91 =? 123) with false. change (91 =? 91) with true. cbv iota.
    destruct SK as (-> & HD). rewrite eat_no.
    2:{ destruct (join (item_sep ind (lvl + 1)) (map (json_text ind (lvl + 1)) (v :: l))); [destruct HD|apply HD]. }
    rewrite elements_text; [reflexivity|exact R|exact C|discriminate|apply newline_ws|lia].
  - intros d R ind lvl fuel rest C L S. cbn [clean] in C.
    destruct d as [|kv d]; [destruct fuel as [|fuel]; [cbn in L; lia|reflexivity]|].
    destruct fuel as [|fuel]; [cbn in L; lia|].
    assert (T : json_text ind lvl (VDict (kv :: d)) =
      123 :: newline ind (lvl + 1) ++ join (item_sep ind (lvl + 1)) (map (member_text ind (lvl + 1)) (kv :: d)) ++ newline ind lvl ++ [125]) by reflexivity.
    rewrite T in *. clear T. cbn [length] in L. rewrite !app_length in L. cbn [length] in L. cbn [app]. rewrite <- !app_assoc. cbn [app].
    assert (SK : skip_ws (newline ind (lvl + 1) ++ join (item_sep ind (lvl + 1)) (map (member_text ind (lvl + 1)) (kv :: d)) ++ newline ind lvl ++ 125 :: rest) =
      join (item_sep ind (lvl + 1)) (map (member_text ind (lvl + 1)) (kv :: d)) ++ newline ind lvl ++ 125 :: rest /\
      head_ok (join (item_sep ind (lvl + 1)) (map (member_text ind (lvl + 1)) (kv :: d)))).
    { assert (HM : forall x, exists t, member_text ind (lvl + 1) x = 34 :: t) by (intros [k0 x0]; eexists; reflexivity).
      destruct (HM kv) as (t & E). pose proof (newline_ws ind (lvl + 1)) as W.
      destruct d as [|kv'' d]; cbn [map join]; rewrite E; cbn [app];
        (split; [now apply skip_ws_app|cbn; split; [reflexivity|lia]]). }
    cbn [value]. change (123 =? 123) with true. cbv iota.
    destruct SK as (-> & HD). rewrite eat_no.
    2:{ destruct (join (item_sep ind (lvl + 1)) (map (member_text ind (lvl + 1)) (kv :: d))); [destruct HD|apply HD]. }
    rewrite members_text; [reflexivity|exact R|exact C|discriminate|apply newline_ws|lia].
Qed.

Theorem dumps_reads ind v t : clean v -> json_dumps ind v = Ok t -> read_json t = Some (jv_of v).
Proof.
  intros C H. unfold json_dumps in H. destruct (json_ok v); [|discriminate H]. injection H as <-.
  unfold read_json. pose proof (head_skip ind 0 v [] [] C (Forall_nil _)) as SK. cbn [app] in SK. rewrite !app_nil_r in SK. rewrite SK.
  pose proof (text_reads v ind 0 (S (length (json_text ind 0 v))) [] C ltac:(lia) Logic.I) as R. rewrite app_nil_r in R. now rewrite R.
Qed.
