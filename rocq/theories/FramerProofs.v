(** * FramerProofs: catch_message implements the reference segmentation. *)
From Verif Require Import PyBase BitsModel BitsSpec BitsProofs CrcModel CrcSpec CrcProofs
  FramerModel FramerSpec.

(** ** Facts about the specification *)
Lemma frame_shape_length f : frame_shape f -> 6 <= zlen f <= 1029.
Proof.
  intros (h1 & h2 & body & -> & H1 & H2 & Hl). rewrite !zlen_cons. lia.
Qed.

Lemma valid_frame_shape f : valid_frame f -> frame_shape f.
Proof.
  intros (h1 & h2 & p & c1 & c2 & c3 & -> & H1 & H2 & Hl & _).
  exists h1, h2, (p ++ [c1; c2; c3]). repeat split; try lia.
  rewrite zlen_app, Hl, !zlen_cons, zlen_nil. lia.
Qed.

Lemma valid_frame_nonnil f : valid_frame f -> f <> [].
Proof. intros (? & ? & ? & ? & ? & ? & -> & _). discriminate. Qed.

Lemma valid_frame_bytes f : valid_frame f -> bytes_ok f.
Proof.
  intros (h1 & h2 & p & c1 & c2 & c3 & -> & H1 & H2 & Hl & Hp & C1 & C2 & C3 & _).
  repeat (apply bytes_ok_cons; split; [unfold byte_ok; lia|]).
  apply bytes_ok_app. split; [exact Hp|]. repeat constructor; apply C1 || apply C2 || apply C3.
Qed.

(** The length of a frame is determined by its first three bytes. *)
Lemma frame_shape_prefix_eq f g t u :
  frame_shape f -> frame_shape g -> f ++ t = g ++ u -> f = g /\ t = u.
Proof.
  intros (h1 & h2 & b & -> & H1 & H2 & Hl) (h1' & h2' & b' & -> & H1' & H2' & Hl') E.
  cbn [app] in E. inversion E; subst h1' h2'.
  assert (L : length b = length b') by (unfold zlen in *; lia).
  match goal with H : b ++ t = b' ++ u |- _ => apply app_inv_length in H || rename H into HH end.
  assert (B : b = b').
  { apply (f_equal (firstn (length b))) in HH.
    rewrite firstn_app, firstn_all, Nat.sub_diag, firstn_O, app_nil_r in HH.
    rewrite L in HH. rewrite firstn_app, firstn_all, Nat.sub_diag, firstn_O, app_nil_r in HH.
    exact HH. }
  subst b'. apply app_inv_head in HH. now subst.
Qed.

Lemma app_eq_split {A} (a b c d : list A) : a ++ b = c ++ d ->
  (exists e, c = a ++ e /\ b = e ++ d) \/ (exists e, e <> [] /\ a = c ++ e /\ d = e ++ b).
Proof.
  revert c; induction a as [|x a IH]; intros c E; cbn [app] in E.
  - left. exists c. auto.
  - destruct c as [|y c]; cbn [app] in E.
    + right. exists (x :: a). subst d. repeat split; [discriminate|reflexivity..].
    + inversion E; subst y. destruct (IH _ H1) as [(e & -> & ->)|(e & N & -> & ->)].
      * left; exists e; auto.
      * right; exists e; auto.
Qed.

(** A position decided as junk stays junk whatever follows. *)
Lemma junk_stable s t : s <> [] -> ~ pending s -> ~ starts_valid s ->
  ~ pending (s ++ t) /\ ~ starts_valid (s ++ t).
Proof.
  intros Hs Hp Hv. split.
  - intros (_ & e & He & Sh). apply Hp. split; [exact Hs|].
    exists (t ++ e). split; [intros C; apply app_eq_nil in C; tauto|]. now rewrite app_assoc.
  - intros (f & u & E & Vf).
    destruct (app_eq_split _ _ _ _ E) as [(e & -> & ->)|(e & N & -> & ->)].
    + destruct e as [|x e].
      * apply Hv. exists s, []. rewrite app_nil_r in *. auto.
      * apply Hp. split; [exact Hs|]. exists (x :: e). split; [discriminate|].
        now apply valid_frame_shape.
    + apply Hv. exists f, e. auto.
Qed.

Lemma starts_valid_not_pending s : starts_valid s -> ~ pending s.
Proof.
  intros (f & t & -> & Vf) (_ & e & He & Sh).
  rewrite <- app_assoc in Sh.
  pose proof (frame_shape_prefix_eq f (f ++ t ++ e) (t ++ e) [] (valid_frame_shape _ Vf) Sh) as P.
  rewrite app_nil_r in P. destruct (P eq_refl) as [_ N].
  apply app_eq_nil in N as [_ N]. auto.
Qed.

Lemma scans_functional s segs rest : scans s segs rest ->
  forall segs' rest', scans s segs' rest' -> segs = segs' /\ rest = rest'.
Proof.
  induction 1 as [|s P|f s segs rest V S IH|b s segs rest NP NV S IH]; intros segs' rest' S'.
  - inversion S' as [E|s0 P E|f s0 segs0 rest0 V S0 E|]; subst.
    + auto.
    + destruct P as [P _]; congruence.
    + apply app_eq_nil in E as [E _]. now apply valid_frame_nonnil in E.
  - inversion S' as [E|s0 P0 E|f s0 segs0 rest0 V S0 E|b s0 segs0 rest0 NP NV S0 E]; subst.
    + destruct P as [P _]; congruence.
    + auto.
    + exfalso. refine (starts_valid_not_pending _ _ P). exists f, s0; auto.
    + contradiction.
  - inversion S' as [E|s0 P0 E|f0 s0 segs0 rest0 V0 S0 E|b s0 segs0 rest0 NP NV S0 E]; subst.
    + symmetry in E. apply app_eq_nil in E as [E _]. now apply valid_frame_nonnil in E.
    + exfalso. refine (starts_valid_not_pending _ _ P0). exists f, s; auto.
    + destruct (frame_shape_prefix_eq f0 f s0 s) as [-> ->]; auto using valid_frame_shape.
      destruct (IH _ _ S0) as [-> ->]. auto.
    + exfalso. apply NV. rewrite E. exists f, s; auto.
  - inversion S' as [E|s0 P0 E|f0 s0 segs0 rest0 V0 S0 E|b0 s0 segs0 rest0 NP0 NV0 S0 E]; subst.
    + contradiction.
    + exfalso. apply NV. rewrite <- E. exists f0, s0; auto.
    + destruct (IH _ _ S0) as [-> ->]. auto.
Qed.

Lemma scans_app s segs rest : scans s segs rest -> forall t segs' rest',
  scans (rest ++ t) segs' rest' -> scans (s ++ t) (segs ++ segs') rest'.
Proof.
  induction 1 as [|s P|f s segs rest V S IH|b s segs rest NP NV S IH]; intros t segs' rest' S';
    cbn [app] in *; auto.
  - rewrite <- app_assoc. constructor; auto.
  - destruct (junk_stable (b :: s) t) as [NP' NV']; [discriminate|assumption..|].
    constructor; auto.
Qed.

Lemma scans_bytes s segs rest : scans s segs rest -> s = seg_bytes segs ++ rest.
Proof.
  induction 1 as [|s P|f s segs rest V S IH|b s segs rest NP NV S IH];
    cbn [seg_bytes flat_map app] in *; auto.
  - rewrite <- app_assoc. f_equal. exact IH.
  - f_equal. exact IH.
Qed.

Lemma scans_frames_valid s segs rest : scans s segs rest -> Forall valid_frame (frames_of segs).
Proof.
  induction 1 as [|s P|f s segs rest V S IH|b s segs rest NP NV S IH];
    unfold frames_of in *; cbn [flat_map app] in *; auto.
Qed.

Lemma scans_rest s segs rest : scans s segs rest -> rest = [] \/ pending rest.
Proof. induction 1; auto. Qed.

Lemma scans_rest_fixed s segs rest : scans s segs rest -> scans rest [] rest.
Proof. intros H. destruct (scans_rest _ _ _ H) as [->|P]; constructor; auto. Qed.

Lemma pending_length s : pending s -> 1 <= zlen s <= 1028.
Proof.
  intros (Hs & e & He & Sh). apply frame_shape_length in Sh. rewrite zlen_app in Sh.
  destruct s; [congruence|]. destruct e; [congruence|].
  rewrite !zlen_cons in *. pose proof (zlen_nonneg s). pose proof (zlen_nonneg e). lia.
Qed.

(** ** Candidate positions *)
Definition cand (s : list Z) : Prop :=
  match s with
  | [] => False
  | [x] => x = 0xD3
  | x :: y :: _ => x = 0xD3 /\ Z.land y 0xFC = 0
  end.

Lemma land_fc y : byte_ok y -> (Z.land y 0xFC = 0 <-> 0 <= y < 4).
Proof.
  intros Hy.
  assert (E : forallb (fun y => Bool.eqb (Z.land y 0xFC =? 0) (y <? 4)) (zrange 0 256) = true)
    by (vm_compute; reflexivity).
  rewrite forallb_forall in E. specialize (E y (proj2 (zrange_In 0 256 y) Hy)).
  apply eqb_prop in E. unfold byte_ok in Hy. lia.
Qed.

Lemma not_cand_junk s : bytes_ok s -> s <> [] -> ~ cand s -> ~ pending s /\ ~ starts_valid s.
Proof.
  intros Hb Hs Hc.
  assert (A : forall e, frame_shape (s ++ e) -> cand s).
  { intros e (h1 & h2 & body & E & H1 & H2 & _).
    destruct s as [|x [|y s]]; [congruence|..]; cbn [app] in E; inversion E; subst; cbn [cand].
    - reflexivity.
    - split; [reflexivity|]. apply land_fc; [unfold byte_ok; lia|lia]. }
  split.
  - intros (_ & e & _ & Sh). eauto.
  - intros (f & t & -> & V). apply Hc.
    destruct f as [|x [|y f]].
    + now apply valid_frame_nonnil in V.
    + apply valid_frame_shape, frame_shape_length in V. cbn in V. lia.
    + destruct V as (h1 & h2 & p & c1 & c2 & c3 & E & H1 & _).
      inversion E; subst. cbn [app cand]. split; [reflexivity|].
      apply land_fc; [unfold byte_ok; lia|lia].
Qed.

Lemma not_cand_nonD3 b s : b <> 0xD3 -> ~ cand (b :: s).
Proof. destruct s; cbn [cand]; tauto. Qed.

(** Dropping non-candidate bytes. *)
Inductive drops : list Z -> list Z -> list Z -> Prop :=
| drops_refl s : drops s [] s
| drops_cons b s js s' : ~ cand (b :: s) -> drops s js s' -> drops (b :: s) (b :: js) s'.

Lemma drops_app s js s' : drops s js s' -> s = js ++ s'.
Proof. induction 1; cbn [app]; congruence. Qed.

Lemma drops_trans s js s' : drops s js s' -> forall js' s'', drops s' js' s'' ->
  drops s (js ++ js') s''.
Proof. induction 1; intros; cbn [app]; auto. constructor; auto. Qed.

Lemma drops_scans s js s' : bytes_ok s -> drops s js s' -> forall segs rest,
  scans s' segs rest -> scans s (map Junk js ++ segs) rest.
Proof.
  intros Hb H. induction H as [s|b s js s' Hc H IH]; intros segs rest S; cbn [map app]; auto.
  assert (bytes_ok s) by (apply bytes_ok_cons in Hb; tauto).
  destruct (not_cand_junk (b :: s)) as [NP NV]; [assumption|discriminate|assumption|].
  constructor; auto.
Qed.

Lemma drops_nonD3 pre s : Forall (fun x => x <> 0xD3) pre -> drops (pre ++ s) pre s.
Proof.
  induction 1 as [|x pre Hx H IH]; cbn [app]; [constructor|].
  constructor; [now apply not_cand_nonD3|exact IH].
Qed.

(** ** The search loop *)
Lemma find_from_spec l b : forall i, 0 <= i ->
  (find_from l b i = -1 /\ Forall (fun x => x <> b) l) \/
  (exists pre post, l = pre ++ b :: post /\ Forall (fun x => x <> b) pre /\
     find_from l b i = i + zlen pre).
Proof.
  induction l as [|x l IH]; intros i Hi; cbn [find_from]; [left; auto|].
  destruct (x =? b) eqn:E.
  - apply Z.eqb_eq in E; subst x. right. exists [], l. repeat split; auto. cbn; lia.
  - apply Z.eqb_neq in E. destruct (IH (i + 1) ltac:(lia)) as [[F N]|(pre & post & -> & N & F)].
    + left. rewrite F. auto.
    + right. exists (x :: pre), post. repeat split; auto. rewrite F, zlen_cons. lia.
Qed.

Lemma skipn_app_exact {A} (a b : list A) n : length a = n -> skipn n (a ++ b) = b.
Proof. intros <-. now rewrite skipn_app, skipn_all, Nat.sub_diag. Qed.
Lemma firstn_app_exact {A} (a b : list A) n : length a = n -> firstn n (a ++ b) = a.
Proof. intros <-. now rewrite firstn_app, firstn_all, Nat.sub_diag, firstn_O, app_nil_r. Qed.

Lemma rebase_loop_ok fuel : forall tail ptr,
  1 <= ptr <= zlen tail -> zlen tail - ptr < Z.of_nat fuel ->
  exists js tail', rebase_loop fuel tail ptr = Ok tail' /\
    drops (py_drop tail ptr) js tail' /\ (tail' = [] \/ cand tail').
Proof.
  induction fuel as [|fuel IH]; intros tail ptr Hp Hf; [lia|].
  cbn [rebase_loop]. unfold py_find.
  assert (Hsplit : tail = firstn (Z.to_nat ptr) tail ++ py_drop tail ptr)
    by (unfold py_drop; now rewrite firstn_skipn).
  assert (Hl1 : length (firstn (Z.to_nat ptr) tail) = Z.to_nat ptr)
    by (rewrite firstn_length; unfold zlen in *; lia).
  destruct (find_from_spec (py_drop tail ptr) 0xD3 ptr ltac:(lia))
    as [[F N]|(pre & post & E & N & F)].
  - rewrite F. cbn [Z.eqb]. exists (py_drop tail ptr), []. split; [reflexivity|].
    split; [|auto]. rewrite <- (app_nil_r (py_drop tail ptr)) at 1. now apply drops_nonD3.
  - rewrite F. pose proof (zlen_nonneg pre).
    replace (ptr + zlen pre =? -1) with false by lia.
    set (hd := firstn (Z.to_nat ptr) tail) in *.
    assert (Ht : tail = (hd ++ pre) ++ 0xD3 :: post) by (rewrite <- app_assoc, <- E; exact Hsplit).
    assert (Hlen : length (hd ++ pre) = Z.to_nat (ptr + zlen pre))
      by (rewrite app_length; unfold zlen in *; lia).
    assert (Hzt : zlen tail = ptr + zlen pre + 1 + zlen post).
    { rewrite Ht at 1. rewrite zlen_app, zlen_cons. unfold zlen at 1. rewrite Hlen. lia. }
    destruct (ptr + zlen pre =? zlen tail - 1) eqn:E1.
    + assert (post = []) as -> by (destruct post; [reflexivity|rewrite zlen_cons in Hzt;
        pose proof (zlen_nonneg post); lia]).
      exists pre, [0xD3]. split.
      * f_equal. unfold py_slice. rewrite Ht at 1.
        rewrite skipn_app_exact by exact Hlen.
        replace (Z.to_nat _) with 1%nat by lia. reflexivity.
      * rewrite E. split; [now apply drops_nonD3|]. right; reflexivity.
    + destruct post as [|nb post]; [rewrite zlen_nil in Hzt; lia|].
      assert (Hi : py_index tail (ptr + zlen pre + 1) = Ok nb).
      { rewrite py_index_nth by lia. rewrite Ht at 1.
        rewrite nth_error_app2 by lia.
        replace (_ - _)%nat with 1%nat by lia. reflexivity. }
      rewrite Hi. cbn [bind].
      destruct (Z.land nb 252 =? 0) eqn:E2.
      * exists pre, (0xD3 :: nb :: post). split.
        -- f_equal. unfold py_drop. rewrite Ht at 1. now apply skipn_app_exact.
        -- rewrite E. split; [now apply drops_nonD3|]. right. cbn [cand].
           split; [reflexivity|now apply Z.eqb_eq].
      * rewrite zlen_cons in Hzt. pose proof (zlen_nonneg post).
        destruct (IH tail (ptr + zlen pre + 1)) as (js & tail' & R & D & C); [lia|lia|].
        exists (pre ++ 0xD3 :: js), tail'. split; [exact R|]. split; [|exact C].
        rewrite E. apply drops_trans with (1 := drops_nonD3 _ _ N).
        constructor; [cbn [cand]; apply Z.eqb_neq in E2; tauto|].
        assert (Hd : py_drop tail (ptr + zlen pre + 1) = nb :: post).
        { unfold py_drop. rewrite Ht at 1.
          change (0xD3 :: nb :: post) with ([0xD3] ++ nb :: post).
          rewrite app_assoc. apply skipn_app_exact. rewrite app_length, Hlen. cbn [length]. lia. }
        rewrite <- Hd. exact D.
Qed.

Lemma rebase_ok tail :
  (exists b, tail = [b] /\ b <> 0xD3 /\ rebase tail = Ok (tail, 0)) \/
  (exists js tail', rebase tail = Ok (tail', zlen tail') /\ drops tail js tail' /\
     (tail' = [] \/ cand tail')).
Proof.
  destruct tail as [|t0 tl]; cbn [rebase].
  - right. exists [], []. repeat split; auto. constructor.
  - rewrite zlen_cons. destruct tl as [|t1 tl].
    + rewrite zlen_nil. change (1 + 0 =? 1) with true. cbn iota.
      destruct (t0 =? 0xD3) eqn:E.
      * right. exists [], [t0]. repeat split; [constructor|]. right. cbn [cand]. lia.
      * left. exists t0. repeat split. lia.
    + rewrite zlen_cons. pose proof (zlen_nonneg tl).
      replace (1 + (1 + zlen tl) =? 1) with false by lia.
      replace (py_index (t0 :: t1 :: tl) 1) with (@Ok Z t1) by reflexivity. cbn [bind].
      right.
      destruct (t0 =? 0xD3) eqn:E1; cbn [andb].
      * destruct (Z.land t1 252 =? 0) eqn:E2; cbn [negb].
        -- exists [], (t0 :: t1 :: tl). rewrite !zlen_cons. repeat split; [constructor|].
           right. cbn [cand]. split; [now apply Z.eqb_eq|now apply Z.eqb_eq].
        -- destruct (rebase_loop_ok (length (t0 :: t1 :: tl)) (t0 :: t1 :: tl) 1)
             as (js & tail' & R & D & C); [rewrite !zlen_cons; lia|unfold zlen; lia|].
           rewrite R. cbn [bind]. exists (t0 :: js), tail'. repeat split; auto.
           constructor; [cbn [cand]; apply Z.eqb_neq in E2; tauto|exact D].
      * destruct (rebase_loop_ok (length (t0 :: t1 :: tl)) (t0 :: t1 :: tl) 1)
             as (js & tail' & R & D & C); [rewrite !zlen_cons; lia|unfold zlen; lia|].
        rewrite R. cbn [bind]. exists (t0 :: js), tail'. repeat split; auto.
        constructor; [cbn [cand]; apply Z.eqb_neq in E1; tauto|exact D].
Qed.

(** ** Header and CRC readers *)
Lemma field_app_bytes a c t :
  field (a ++ c ++ t) (8 * zlen a) (8 * zlen c) = bits_of c.
Proof.
  unfold field. rewrite bits_of_app, bits_of_app.
  rewrite skipn_app_exact by (rewrite length_bits_of; unfold zlen; lia).
  apply firstn_app_exact. rewrite length_bits_of; unfold zlen; lia.
Qed.

Lemma uval_bits3 c1 c2 c3 : byte_ok c1 -> byte_ok c2 -> byte_ok c3 ->
  uval (bits_of [c1; c2; c3]) = 65536 * c1 + 256 * c2 + c3.
Proof.
  intros. rewrite <- bval_uval by (repeat (apply bytes_ok_cons; split; [assumption|]); constructor).
  unfold bval; cbn [fold_left]. lia.
Qed.

Lemma len_field h1 h2 body : bytes_ok body -> 0 <= h1 < 4 -> byte_ok h2 ->
  getbitu (0xD3 :: h1 :: h2 :: body) 14 10 = Ok (256 * h1 + h2).
Proof.
  intros Hb H1 H2. rewrite getbitu_ok.
  - f_equal. unfold field. change (Z.to_nat 14) with 14%nat. change (Z.to_nat 10) with 10%nat.
    change (bits_of (0xD3 :: h1 :: h2 :: body))
      with (byte_bits 0xD3 ++ byte_bits h1 ++ byte_bits h2 ++ bits_of body).
    change (firstn 10 (skipn 14 (byte_bits 211 ++ byte_bits h1 ++ byte_bits h2 ++ bits_of body)))
      with ([Z.testbit h1 1; Z.testbit h1 0] ++ byte_bits h2).
    rewrite uval_app, uval_byte_bits by exact H2.
    replace (uval [Z.testbit h1 1; Z.testbit h1 0]) with h1; [rewrite zlen_byte_bits; lia|].
    assert (E : forallb (fun h => uval [Z.testbit h 1; Z.testbit h 0] =? h) (zrange 0 4) = true)
      by (vm_compute; reflexivity).
    rewrite forallb_forall in E. symmetry. apply Z.eqb_eq, E, zrange_In. lia.
  - repeat (apply bytes_ok_cons; split; [unfold byte_ok in *; lia|]). exact Hb.
  - unfold field_inside. rewrite !zlen_cons. pose proof (zlen_nonneg body). lia.
Qed.

Lemma mlen_ok h1 h2 body : bytes_ok body -> 0 <= h1 < 4 -> byte_ok h2 ->
  mlen (0xD3 :: h1 :: h2 :: body) = Ok (Some (256 * h1 + h2 + 6)).
Proof. intros. unfold mlen. rewrite len_field by assumption. reflexivity. Qed.

Lemma list_last3 {A} (l : list A) n : length l = (n + 3)%nat ->
  exists p a b c, l = p ++ [a; b; c] /\ length p = n.
Proof.
  intros H. exists (firstn n l).
  assert (L : length (skipn n l) = 3%nat) by (rewrite skipn_length; lia).
  destruct (skipn n l) as [|a [|b [|c [|d r]]]] eqn:E; cbn [length] in L; try lia.
  exists a, b, c. rewrite <- E, firstn_skipn. split; [reflexivity|].
  rewrite firstn_length. lia.
Qed.

Lemma mcrc_ok f t : bytes_ok (f ++ t) -> frame_shape f ->
  exists b, mcrc (f ++ t) = Ok (Some b) /\ (b = true <-> valid_frame f).
Proof.
  intros Hb (h1 & h2 & body & -> & H1 & H2 & Hl).
  destruct (list_last3 body (Z.to_nat (256 * h1 + h2))) as (p & c1 & c2 & c3 & -> & Hp);
    [unfold zlen in Hl; lia|].
  assert (Hbf : bytes_ok (0xD3 :: h1 :: h2 :: p ++ [c1; c2; c3])) by (apply bytes_ok_app in Hb; tauto).
  pose proof Hbf as Hbf'.
  apply bytes_ok_cons in Hbf' as [_ Hbf']. apply bytes_ok_cons in Hbf' as [_ Hbf'].
  apply bytes_ok_cons in Hbf' as [B2 Hbf']. apply bytes_ok_app in Hbf' as [Bp Bc].
  assert (B : byte_ok c1 /\ byte_ok c2 /\ byte_ok c3).
  { repeat (apply bytes_ok_cons in Bc as [? Bc]). tauto. }
  destruct B as (C1 & C2 & C3).
  unfold mcrc.
  assert (Hbody : bytes_ok ((p ++ [c1; c2; c3]) ++ t)).
  { apply bytes_ok_app. split; [apply bytes_ok_app; auto|]. apply bytes_ok_app in Hb; tauto. }
  cbn [app]. rewrite len_field by assumption. cbn [bind]. cbv zeta.
  set (D := 0xD3 :: h1 :: h2 :: p).
  assert (Esplit : 0xD3 :: h1 :: h2 :: (p ++ [c1; c2; c3]) ++ t = D ++ [c1; c2; c3] ++ t)
    by (unfold D; cbn [app]; now rewrite <- app_assoc).
  assert (BD : bytes_ok D).
  { unfold D. repeat (apply bytes_ok_cons; split; [unfold byte_ok in *; lia|]). exact Bp. }
  assert (ZD : zlen D = 256 * h1 + h2 + 3) by (unfold D; rewrite !zlen_cons; unfold zlen; lia).
  rewrite Esplit.
  unfold py_slice at 1. change (Z.to_nat 0) with 0%nat. cbn [skipn].
  rewrite (firstn_app_exact D) by (unfold zlen in ZD; lia).
  destruct (crc_calc_correct D BD) as (crc & EC & SC).
  rewrite EC. cbn [bind].
  rewrite getbitu_ok.
  2: { apply bytes_ok_app. split; [exact BD|]. apply bytes_ok_app. split; [exact Bc|].
       apply bytes_ok_app in Hb; tauto. }
  2: { unfold field_inside. rewrite (zlen_app D), ZD, (zlen_app [c1; c2; c3]).
       change (zlen [c1; c2; c3]) with 3.
       pose proof (zlen_nonneg t). lia. }
  cbn [bind catch_bits].
  replace ((256 * h1 + h2 + 3) * 8) with (8 * zlen D) by lia.
  change (field ?b ?p 24) with (field b p (8 * zlen [c1; c2; c3])).
  rewrite field_app_bytes, uval_bits3 by assumption.
  eexists. split; [reflexivity|]. rewrite Z.eqb_eq. split; intros H.
  - exists h1, h2, p, c1, c2, c3. split; [reflexivity|].
    split; [lia|]. split; [lia|]. split; [unfold zlen; lia|]. split; [exact Bp|].
    do 3 (split; [assumption|]). rewrite <- H. exact SC.
  - destruct H as (g1 & g2 & p' & d1 & d2 & d3 & E & _ & _ & Hlp & _ & _ & _ & _ & S).
    inversion E as [[Eh1 Eh2 Ep]]; subst g1 g2.
    assert (p = p' /\ [c1; c2; c3] = [d1; d2; d3]) as [-> Ec].
    { assert (LL : length p = length p') by (unfold zlen in Hlp; lia).
      clear - Ep LL. revert p' Ep LL. induction p as [|x p IH]; intros [|y p'] Ep LL;
        cbn [length] in LL; try lia; cbn [app] in Ep.
      - auto.
      - inversion Ep; subst. destruct (IH p') as [-> ->]; auto. }
    inversion Ec; subst. fold D in S. eapply is_crc24q_unique; [exact SC|exact S].
Qed.

(** ** Flags *)
Definition notice (fl : bool * bool * Z) : bool * bool * Z :=
  let '(sync, skipped, e) := fl in
  if negb skipped && sync then (false, true, e) else fl.
Definition fstep (fl : bool * bool * Z) (s : segment) : bool * bool * Z :=
  match s with
  | Junk _ => notice fl
  | Frame _ => let '(sync, skipped, e) := fl in (true, false, if skipped then e + 1 else e)
  end.
Definition flags_of (segs : list segment) : bool * bool * Z :=
  fold_left fstep segs (false, false, 0).
Definition st_flags (st : framer) : bool * bool * Z := (fr_sync st, fr_skipped st, fr_errs st).

Lemma notice_idem fl : notice (notice fl) = notice fl.
Proof. destruct fl as [[[] []] e]; reflexivity. Qed.

Lemma flags_of_app a b : flags_of (a ++ b) = fold_left fstep b (flags_of a).
Proof. apply fold_left_app. Qed.

Lemma fold_junk js : forall fl, js <> [] -> fold_left fstep (map Junk js) fl = notice fl.
Proof.
  induction js as [|b js IH]; intros fl H; [congruence|]. cbn [map fold_left fstep].
  destruct js as [|c js]; [reflexivity|]. rewrite IH by discriminate. apply notice_idem.
Qed.

Lemma flags_errs segs :
  let '(sync, skipped, e) := flags_of segs in
  e = interrupted_messages segs.
Proof.
  assert (G : forall r junk e,
     snd (fold_left fstep r (negb junk, junk, e)) = e + gaps_since_frame junk r).
  { induction r as [|x r IH]; intros junk e; cbn [fold_left gaps_since_frame]; [cbn [snd]; lia|].
    destruct x as [b|f]; cbn [fstep].
    - replace (notice (negb junk, junk, e)) with (negb true, true, e) by (destruct junk; reflexivity).
      apply IH.
    - change true with (negb false). rewrite IH. destruct junk; lia. }
  assert (I : forall r, snd (fold_left fstep r (false, false, 0)) = interrupted_messages r).
  { induction r as [|x r IH]; [reflexivity|]. cbn [fold_left interrupted_messages].
    destruct x as [b|f]; cbn [fstep]; [exact IH|].
    change true with (negb false). rewrite G. reflexivity. }
  specialize (I segs). unfold flags_of. destruct (fold_left _ _ _) as [[? ?] ?]. exact I.
Qed.

(** ** The main loop *)
Definition loose (segs : list segment) (st : framer) : Prop :=
  notice (st_flags st) = notice (flags_of segs) /\
  (st_flags st = flags_of segs \/ exists b r, fr_tail st = b :: r /\ b <> 0xD3).

Definition tail_match (rest : list Z) (segs : list segment) (tail : list Z) : Prop :=
  tail = rest \/
  (rest = [] /\ exists b segs0, tail = [b] /\ b <> 0xD3 /\ segs = segs0 ++ [Junk b]).

Lemma frames_of_junk js segs : frames_of (map Junk js ++ segs) = frames_of segs.
Proof. induction js; cbn [map app]; auto. Qed.

Lemma frames_of_app a b : frames_of (a ++ b) = frames_of a ++ frames_of b.
Proof. apply flat_map_app. Qed.

Lemma drops_notice st tail js tail' segs :
  loose segs st -> fr_tail st = tail -> drops tail js tail' -> (tail' = [] \/ cand tail') ->
  let hit := negb (fr_skipped st) && (zlen tail' <? zlen tail) && fr_sync st in
  ((if hit then false else fr_sync st), (if hit then true else fr_skipped st), fr_errs st)
  = flags_of (segs ++ map Junk js).
Proof.
  intros [L1 L2] Et D C hit. subst hit.
  pose proof (drops_app _ _ _ D) as Hs.
  assert (Hz : zlen tail = zlen js + zlen tail') by (rewrite Hs; apply zlen_app).
  rewrite flags_of_app. destruct js as [|b js].
  - rewrite zlen_nil in Hz. replace (zlen tail' <? zlen tail) with false by lia.
    rewrite andb_false_r. cbn [andb map fold_left].
    destruct L2 as [L2|(b & r & Et' & Hb)]; [exact L2|].
    exfalso. rewrite Et' in Et. subst tail. cbn [app] in Hs. subst tail'.
    destruct C as [C|C]; [discriminate|]. now apply not_cand_nonD3 in C.
  - rewrite zlen_cons in Hz. pose proof (zlen_nonneg js).
    replace (zlen tail' <? zlen tail) with true by lia.
    rewrite fold_junk by discriminate. rewrite <- L1. unfold notice, st_flags.
    rewrite andb_true_r. destruct (negb (fr_skipped st) && fr_sync st); reflexivity.
Qed.

Lemma cand_short tail : bytes_ok tail -> cand tail -> zlen tail < 6 -> pending tail.
Proof.
  intros Hb Hc Hl. split; [destruct tail; [contradiction|discriminate]|].
  destruct tail as [|x [|h1 tail]]; [contradiction|..].
  - cbn [cand] in Hc. subst x. exists (0 :: 0 :: [0; 0; 0]). split; [discriminate|].
    exists 0, 0, [0; 0; 0]. cbn. repeat split; lia.
  - cbn [cand] in Hc. destruct Hc as [-> Hc].
    apply bytes_ok_cons in Hb as [_ Hb]. apply bytes_ok_cons in Hb as [Hh Hb].
    apply land_fc in Hc; [|exact Hh].
    destruct tail as [|h2 tail].
    + exists (0 :: repeat 0 (Z.to_nat (256 * h1 + 3))). split; [discriminate|].
      exists h1, 0, (repeat 0 (Z.to_nat (256 * h1 + 3))). cbn [app]. repeat split; try lia.
      unfold zlen; rewrite repeat_length; lia.
    + apply bytes_ok_cons in Hb as [Hh2 Hb]. unfold byte_ok in Hh2.
      rewrite !zlen_cons in Hl. pose proof (zlen_nonneg tail) as Hnn.
      exists (repeat 0 (Z.to_nat (256 * h1 + h2 + 3 - zlen tail))). split.
      * destruct (Z.to_nat _) eqn:E; [lia|discriminate].
      * exists h1, h2, (tail ++ repeat 0 (Z.to_nat (256 * h1 + h2 + 3 - zlen tail))).
        cbn [app]. repeat split; try lia.
        rewrite zlen_app. unfold zlen at 2. rewrite repeat_length. lia.
Qed.

Lemma cand_long tail : bytes_ok tail -> cand tail -> 6 <= zlen tail ->
  exists h1 h2 body, tail = 0xD3 :: h1 :: h2 :: body /\ 0 <= h1 < 4 /\ byte_ok h2 /\ bytes_ok body.
Proof.
  intros Hb Hc Hl.
  destruct tail as [|x [|h1 [|h2 body]]]; try (cbn in Hl; lia).
  cbn [cand] in Hc. destruct Hc as [-> Hc].
  apply bytes_ok_cons in Hb as [_ Hb]. apply bytes_ok_cons in Hb as [Hh Hb].
  apply bytes_ok_cons in Hb as [Hh2 Hb].
  apply land_fc in Hc; [|exact Hh]. exists h1, h2, body. auto.
Qed.

Lemma catch_loop_ok fuel : forall st ret segs,
  bytes_ok (fr_tail st) -> zlen (fr_tail st) < Z.of_nat fuel -> loose segs st ->
  exists st' segs' rest,
    catch_loop fuel st ret = Ok (st', rev ret ++ frames_of segs') /\
    scans (fr_tail st) segs' rest /\
    st_flags st' = flags_of (segs ++ segs') /\
    tail_match rest segs' (fr_tail st').
Proof.
  induction fuel as [|fuel IH]; intros st ret segs Hb Hf Hloose; [pose proof (zlen_nonneg (fr_tail st)); lia|].
  cbn [catch_loop].
  destruct (rebase_ok (fr_tail st)) as [(b & Et & Hne & R)|(js & tail' & R & D & C)].
  - (* a lone byte that is not a preamble *)
    rewrite R. cbn [bind].
    exists (mkFramer [b] (if negb (fr_skipped st) && (0 <? zlen [b]) && fr_sync st then true else fr_skipped st)
         (if negb (fr_skipped st) && (0 <? zlen [b]) && fr_sync st then false else fr_sync st) (fr_errs st)),
       [Junk b], [].
    rewrite Et. split; [cbn [frames_of flat_map]; rewrite app_nil_r; reflexivity|].
    split; [|split].
    + change [Junk b] with (map Junk [b] ++ []). apply (drops_scans [b] [b] []).
      * now rewrite <- Et.
      * constructor; [now apply not_cand_nonD3|constructor].
      * constructor.
    + rewrite flags_of_app. cbn [fold_left fstep]. destruct Hloose as [L1 _].
      rewrite <- L1. unfold st_flags, notice; cbn [fr_sync fr_skipped fr_errs].
      change (0 <? zlen [b]) with true. rewrite andb_true_r.
      destruct (negb (fr_skipped st) && fr_sync st); reflexivity.
    + right. split; [reflexivity|]. exists b, []. auto.
  - rewrite R. cbn [bind].
    pose proof (drops_notice st (fr_tail st) js tail' segs Hloose eq_refl D C) as Hfl.
    cbv zeta in Hfl.
    set (hit := negb (fr_skipped st) && (zlen tail' <? zlen (fr_tail st)) && fr_sync st) in *.
    pose proof (drops_app _ _ _ D) as Hs.
    assert (Hb' : bytes_ok tail') by (rewrite Hs in Hb; apply bytes_ok_app in Hb; tauto).
    assert (Hz : zlen (fr_tail st) = zlen js + zlen tail') by (rewrite Hs; apply zlen_app).
    pose proof (zlen_nonneg js).
    assert (Wait : tail' = [] \/ pending tail' ->
      exists segs' rest,
       frames_of segs' = [] /\ scans (fr_tail st) segs' rest /\
       (if hit then false else fr_sync st, if hit then true else fr_skipped st, fr_errs st)
         = flags_of (segs ++ segs') /\ tail' = rest).
    { intros W. exists (map Junk js ++ []), tail'. rewrite frames_of_junk. split; [reflexivity|].
      split; [|split; [|reflexivity]].
      - apply drops_scans with (s' := tail'); auto.
        destruct W as [->|W]; constructor; auto.
      - rewrite app_nil_r. exact Hfl. }
    destruct (zlen tail' <? 6) eqn:E6.
    + destruct Wait as (segs' & rest & F & S & Fl & Et').
      { destruct C as [C|C]; [auto|]. right. apply cand_short; auto; lia. }
      eexists; exists segs', rest. split; [rewrite F, app_nil_r; reflexivity|].
      split; [exact S|]. split; [exact Fl|]. left. exact Et'.
    + destruct C as [->|C]; [cbn in E6; discriminate|].
      destruct (cand_long tail' Hb' C ltac:(lia)) as (h1 & h2 & body & Et' & H1 & H2 & Hbody).
      assert (Hml : mlen tail' = Ok (Some (256 * h1 + h2 + 6)))
        by (rewrite Et'; apply mlen_ok; assumption).
      rewrite Hml. cbn [bind].
      unfold byte_ok in H2.
      assert (Hzb : zlen tail' = 3 + zlen body) by (rewrite Et', !zlen_cons; lia).
      destruct (zlen tail' <? 256 * h1 + h2 + 6) eqn:EL.
      * destruct Wait as (segs' & rest & F & S & Fl & Etr).
        { right. split; [rewrite Et'; discriminate|].
          exists (repeat 0 (Z.to_nat (256 * h1 + h2 + 3 - zlen body))). split.
          - destruct (Z.to_nat _) eqn:E; [lia|discriminate].
          - exists h1, h2, (body ++ repeat 0 (Z.to_nat (256 * h1 + h2 + 3 - zlen body))).
            rewrite Et'. cbn [app]. repeat split; try lia.
            rewrite zlen_app. unfold zlen at 2. rewrite repeat_length. lia. }
        eexists; exists segs', rest. split; [rewrite F, app_nil_r; reflexivity|].
        split; [exact S|]. split; [exact Fl|]. left. exact Etr.
      * set (ml := 256 * h1 + h2 + 6) in *.
        set (f := py_slice tail' 0 ml).
        assert (Hsplit : tail' = f ++ py_drop tail' ml).
        { unfold f, py_slice, py_drop. change (Z.to_nat 0) with 0%nat. cbn [skipn].
          rewrite Z.sub_0_r. now rewrite firstn_skipn. }
        assert (Shf : frame_shape f).
        { exists h1, h2, (firstn (Z.to_nat (256 * h1 + h2 + 3)) body).
          split; [|repeat split; try lia].
          - unfold f, py_slice. change (Z.to_nat 0) with 0%nat. cbn [skipn]. rewrite Et'.
            replace (Z.to_nat (ml - 0)) with (3 + Z.to_nat (256 * h1 + h2 + 3))%nat by lia.
            reflexivity.
          - unfold zlen. rewrite firstn_length. unfold zlen in *. lia. }
        destruct (mcrc_ok f (py_drop tail' ml)) as (b & Ecrc & Hval); [now rewrite <- Hsplit|exact Shf|].
        rewrite <- Hsplit in Ecrc. rewrite Ecrc. cbn [bind].
        destruct b.
        -- assert (V : valid_frame f) by tauto.
           destruct (IH (mkFramer (py_drop tail' ml) false true
               (if (if hit then true else fr_skipped st) then fr_errs st + 1 else fr_errs st))
               (f :: ret) (segs ++ map Junk js ++ [Frame f])) as (st' & segs' & rest & E & S & Fl & T).
           { cbn [fr_tail]. unfold py_drop. now apply bytes_ok_skipn. }
           { cbn [fr_tail]. unfold py_drop, zlen. rewrite skipn_length. unfold zlen in *. lia. }
           { assert (Fl' : st_flags (mkFramer (py_drop tail' ml) false true
               (if (if hit then true else fr_skipped st) then fr_errs st + 1 else fr_errs st))
               = flags_of (segs ++ map Junk js ++ [Frame f])).
             { rewrite app_assoc, flags_of_app. cbn [fold_left fstep]. rewrite <- Hfl. reflexivity. }
             split; [now rewrite Fl'|left; exact Fl']. }
           exists st', (map Junk js ++ Frame f :: segs'), rest.
           split; [|split; [|split]].
           ++ rewrite E. cbn [rev]. rewrite frames_of_junk, <- app_assoc. reflexivity.
           ++ apply drops_scans with (s' := tail'); auto. rewrite Hsplit. constructor; auto.
           ++ rewrite Fl. f_equal. now rewrite <- !app_assoc.
           ++ destruct T as [T|(Tr & b & segs0 & T1 & T2 & T3)]; [left; exact T|].
              right. split; [exact Tr|]. exists b, (map Junk js ++ Frame f :: segs0).
              rewrite T3. rewrite <- app_assoc. auto.
        -- assert (NV : ~ valid_frame f) by (rewrite <- Hval; discriminate).
           assert (Hdrop : py_drop tail' 1 = h1 :: h2 :: body) by (rewrite Et'; reflexivity).
           destruct (IH (mkFramer (py_drop tail' 1) (if hit then true else fr_skipped st)
               (if hit then false else fr_sync st) (fr_errs st))
               ret (segs ++ map Junk js ++ [Junk 0xD3])) as (st' & segs' & rest & E & S & Fl & T).
           { cbn [fr_tail]. unfold py_drop. now apply bytes_ok_skipn. }
           { cbn [fr_tail]. unfold py_drop, zlen. rewrite skipn_length. unfold zlen in *. lia. }
           { split.
             - rewrite app_assoc, (flags_of_app _ [Junk 0xD3]). cbn [fold_left fstep].
               rewrite notice_idem, <- Hfl. reflexivity.
             - right. exists h1, (h2 :: body). split; [exact Hdrop|lia]. }
           exists st', (map Junk js ++ Junk 0xD3 :: segs'), rest.
           split; [|split; [|split]].
           ++ rewrite E. rewrite frames_of_junk. reflexivity.
           ++ apply drops_scans with (s' := tail'); auto.
              cbn [fr_tail] in S. rewrite Hdrop in S. rewrite Et'. constructor; [..|exact S].
              ** rewrite <- Et'. intros (_ & e & He & Sh).
                 rewrite Hsplit, <- app_assoc in Sh.
                 pose proof (frame_shape_prefix_eq f (f ++ py_drop tail' ml ++ e)
                   (py_drop tail' ml ++ e) [] Shf Sh) as P.
                 rewrite app_nil_r in P. destruct (P eq_refl) as [_ N].
                 apply app_eq_nil in N as [_ N]. auto.
              ** rewrite <- Et'. intros (g & u & Eg & Vg).
                 rewrite Hsplit in Eg.
                 destruct (frame_shape_prefix_eq f g _ _ Shf (valid_frame_shape _ Vg) Eg) as [-> _].
                 contradiction.
           ++ rewrite Fl. f_equal. now rewrite <- !app_assoc.
           ++ destruct T as [T|(Tr & b & segs0 & T1 & T2 & T3)]; [left; exact T|].
              right. split; [exact Tr|]. exists b, (map Junk js ++ Junk 0xD3 :: segs0).
              rewrite T3. rewrite <- app_assoc. auto.
Qed.

(** ** One call, and a history of calls *)
(** The framer state reached after consuming [stream]. *)
Definition reached (stream : list Z) (segs : list segment) (rest : list Z) (st : framer) : Prop :=
  scans stream segs rest /\ st_flags st = flags_of segs /\ tail_match rest segs (fr_tail st)
  /\ bytes_ok (fr_tail st).

Lemma reached_init : reached [] [] [] framer_init.
Proof. repeat split; try constructor. reflexivity. Qed.

Lemma catch_message_ok stream segs rest st chunk :
  reached stream segs rest st -> bytes_ok chunk ->
  exists st' segs' rest', catch_message st chunk = Ok (st', frames_of segs') /\
    reached (stream ++ chunk) (segs ++ segs') rest' st'.
Proof.
  intros (S & Fl & T & Hb) Hc. unfold catch_message.
  destruct (fr_tail st ++ chunk) as [|x0 tl0] eqn:Et.
  - apply app_eq_nil in Et as [Et ->].
    destruct T as [T|(_ & b & ? & T & _)]; [|congruence].
    exists (mkFramer [] (fr_skipped st) (fr_sync st) (fr_errs st)), [], [].
    split; [reflexivity|]. rewrite !app_nil_r.
    rewrite T in Et. rewrite Et in S.
    split; [exact S|]. split; [exact Fl|]. split; [left; reflexivity|constructor].
  - rewrite <- Et.
    set (st1 := mkFramer (fr_tail st ++ chunk) (fr_skipped st) (fr_sync st) (fr_errs st)).
    assert (Hb1 : bytes_ok (fr_tail st1)) by (cbn [st1 fr_tail]; apply bytes_ok_app; auto).
    assert (Hfuel : zlen (fr_tail st1) < Z.of_nat (Datatypes.S (length (fr_tail st ++ chunk))))
      by (cbn [st1 fr_tail]; unfold zlen; lia).
    assert (Bt : forall segs' rest' st', scans (fr_tail st1) segs' rest' ->
       tail_match rest' segs' (fr_tail st') -> bytes_ok (fr_tail st')).
    { intros segs' rest' st' S' T'. pose proof (scans_bytes _ _ _ S') as E.
      rewrite E in Hb1. apply bytes_ok_app in Hb1 as [B1 B2].
      destruct T' as [->|(-> & b & segs0 & -> & _ & ->)]; [exact B2|].
      unfold seg_bytes in B1. rewrite flat_map_app in B1. apply bytes_ok_app in B1. tauto. }
    destruct T as [T|(Er & b & segs0 & Etl & Hb0 & Es)].
    + destruct (catch_loop_ok _ st1 [] segs Hb1 Hfuel) as (st' & segs' & rest' & E & S' & Fl' & T').
      { split; [|left]; unfold st_flags in *; cbn [st1 fr_sync fr_skipped fr_errs]; now rewrite Fl. }
      exists st', segs', rest'. split; [exact E|]. split; [|split; [exact Fl'|split]].
      * apply scans_app with (1 := S). cbn [st1 fr_tail] in S'. now rewrite T in S'.
      * destruct T' as [T'|(R' & b & segs0 & T1 & T2 & T3)]; [left; exact T'|].
        right. split; [exact R'|]. exists b, (segs ++ segs0). rewrite T3, app_assoc. auto.
      * eapply Bt; eauto.
    + (* the lone garbage byte kept by the previous call is dropped again *)
      destruct (catch_loop_ok _ st1 [] segs0 Hb1 Hfuel) as (st' & segs' & rest' & E & S' & Fl' & T').
      { split.
        - unfold st_flags in *; cbn [st1 fr_sync fr_skipped fr_errs]. rewrite Fl, Es.
          rewrite flags_of_app. cbn [fold_left fstep]. apply notice_idem.
        - right. exists b, chunk. cbn [st1 fr_tail]. rewrite Etl. auto. }
      pose proof S' as S''. cbn [st1 fr_tail] in S''. rewrite Etl in S''. cbn [app] in S''.
      assert (NC : ~ pending (b :: chunk) /\ ~ starts_valid (b :: chunk)).
      { apply not_cand_junk; [|discriminate|now apply not_cand_nonD3].
        cbn [st1 fr_tail] in Hb1. now rewrite Etl in Hb1. }
      inversion S'' as [|s0 P E0|f s0 sg rst V S0 E0|b0 s0 sg rst NP NV S0 E0]; subst.
      * tauto.
      * exfalso. apply (proj2 NC). rewrite <- E0. exists f, s0. auto.
      * exists st', sg, rest'. split; [exact E|]. split; [|split; [|split]].
        -- apply scans_app with (1 := S). exact S0.
        -- rewrite Fl'. f_equal. rewrite <- app_assoc. reflexivity.
        -- destruct T' as [T'|(R' & c & segs1 & T1 & T2 & T3)]; [left; exact T'|].
           right. split; [exact R'|].
           exists c, (segs0 ++ segs1). split; [exact T1|]. split; [exact T2|].
           rewrite <- !app_assoc. cbn [app]. rewrite <- T3. reflexivity.
        -- eapply Bt; eauto.
Qed.

Lemma feed_ok chunks : forall stream segs rest st,
  reached stream segs rest st -> Forall bytes_ok chunks ->
  exists st' segs' rest', feed st chunks = Ok (st', frames_of segs') /\
    reached (stream ++ concat chunks) (segs ++ segs') rest' st'.
Proof.
  induction chunks as [|c chunks IH]; intros stream segs rest st HR HF.
  - exists st, [], rest. split; [reflexivity|]. cbn [concat]. now rewrite !app_nil_r.
  - inversion HF; subst.
    destruct (catch_message_ok stream segs rest st c HR) as (st1 & s1 & r1 & E1 & R1); [assumption|].
    destruct (IH _ _ _ _ R1) as (st2 & s2 & r2 & E2 & R2); [assumption|].
    exists st2, (s1 ++ s2), r2. cbn [feed]. rewrite E1; cbn [bind]. rewrite E2; cbn [bind].
    rewrite frames_of_app. split; [reflexivity|].
    cbn [concat]. rewrite !app_assoc in *. exact R2.
Qed.

(** Everything observable about a history is the reference segmentation of the bytes fed. *)
Theorem feed_reference chunks : Forall bytes_ok chunks ->
  exists st segs rest,
    feed framer_init chunks = Ok (st, frames_of segs) /\
    scans (concat chunks) segs rest /\
    fr_errs st = interrupted_messages segs /\
    zlen (fr_tail st) <= 1028.
Proof.
  intros H. destruct (feed_ok chunks [] [] [] framer_init reached_init H)
    as (st & segs & rest & E & S & Fl & T & _).
  exists st, segs, rest. cbn [app] in *. split; [exact E|]. split; [exact S|]. split.
  - pose proof (flags_errs segs) as FE. rewrite <- Fl in FE. unfold st_flags in FE. exact FE.
  - destruct T as [->|(_ & b & ? & -> & _)]; [|cbn; lia].
    destruct (scans_rest _ _ _ S) as [->|P]; [cbn; lia|]. apply pending_length in P. lia.
Qed.
