(** * MsmProofs: the bare MSM decoder inverts the MSM encoder. *)
From Coq Require Import Sorted.
From Verif Require Import PyBase PyDict BitsModel BitsSpec BitsProofs TablesModel
  MessageSpec ReadProofs MsmModel MsmSpec.
Local Open Scope list_scope.
Local Open Scope Z_scope.

(** ** Masks *)
Definition count_true (l : list bool) : Z := zlen (filter (fun b => b) l).

Lemma lsb_value_nonneg l : 0 <= lsb_value l.
Proof. induction l as [|b l IH]; cbn [lsb_value]; [lia|]. destruct b; cbn [Z.b2z]; lia. Qed.

Lemma lsb_value_bound l : lsb_value l < 2 ^ zlen l.
Proof.
  induction l as [|b l IH]; cbn [lsb_value]; [cbn; lia|].
  rewrite zlen_cons, Z.pow_add_r by (try apply zlen_nonneg; lia).
  destruct b; cbn [Z.b2z]; lia.
Qed.

Lemma lsb_value_testbit l : forall n, Z.testbit (lsb_value l) (Z.of_nat n) = nth n l false.
Proof.
  induction l as [|b l IH]; intros n; cbn [lsb_value].
  - rewrite Z.bits_0. destruct n; reflexivity.
  - destruct n as [|n]; cbn [nth].
    + change (Z.of_nat 0) with 0. rewrite Z.add_comm. apply Z.testbit_0_r.
    + rewrite Nat2Z.inj_succ, Z.add_comm. rewrite Z.testbit_succ_r by lia. apply IH.
Qed.

Lemma pos_count_b2z b x : 0 <= x -> bit_count (Z.b2z b + 2 * x) = Z.b2z b + bit_count x.
Proof.
  intros H. destruct x as [|p|p]; [destruct b; reflexivity | | lia].
  destruct b; reflexivity.
Qed.

Lemma bit_count_lsb l : bit_count (lsb_value l) = count_true l.
Proof.
  induction l as [|b l IH]; [reflexivity|].
  cbn [lsb_value]. rewrite pos_count_b2z by apply lsb_value_nonneg. rewrite IH.
  unfold count_true. destruct b; cbn [filter Z.b2z]; rewrite ?zlen_cons; lia.
Qed.

Lemma uval_testbit l : forall n, (n < length l)%nat ->
  Z.testbit (uval l) (Z.of_nat (length l - 1 - n)) = nth n l false.
Proof.
  intros n Hn.
  assert (E : forall w v k, (k < w)%nat -> nth k (enc w v) false = Z.testbit v (Z.of_nat (w - 1 - k))).
  { clear. induction w as [|w IH]; intros v k Hk; [lia|]. cbn [enc].
    destruct k as [|k]; cbn [nth].
    - f_equal. lia.
    - rewrite IH by lia. f_equal. lia. }
  rewrite <- E by assumption. now rewrite enc_uval.
Qed.

Lemma revbitu_lsb l : zlen l <= 128 -> revbitu (uval l) (zlen l) 0 = Ok (lsb_value l).
Proof.
  intros H. destruct (revbitu_ok (uval l) (zlen l) 0) as (r & E & Hb); try apply zlen_nonneg; try lia.
  rewrite E. f_equal. apply Z.bits_inj'. intros i Hi. rewrite Hb by assumption.
  rewrite <- (Z2Nat.id i) by assumption. rewrite lsb_value_testbit.
  destruct (Z.of_nat (Z.to_nat i) <? zlen l) eqn:L; cbn [andb].
  - rewrite <- uval_testbit by (unfold zlen in L; lia). f_equal. unfold zlen in *. lia.
  - symmetry. apply nth_overflow. unfold zlen in L. lia.
Qed.

Lemma count_true_nonneg l : 0 <= count_true l.
Proof. apply zlen_nonneg. Qed.

Lemma lsb_value_zero l : lsb_value l = 0 <-> count_true l = 0.
Proof.
  induction l as [|b l IH]; [tauto|].
  cbn [lsb_value]. unfold count_true in *. cbn [filter].
  pose proof (lsb_value_nonneg l). destruct b; cbn [Z.b2z].
  - rewrite zlen_cons. pose proof (zlen_nonneg (filter (fun b => b) l)). lia.
  - rewrite <- IH. lia.
Qed.

Lemma member_In k l : member k l = true <-> In k l.
Proof.
  unfold member. rewrite existsb_exists. split.
  - intros (x & Hx & E). apply Z.eqb_eq in E. now subst.
  - intros H. exists k. split; [exact H|apply Z.eqb_refl].
Qed.

Lemma member_cons_lt a k l : a < k -> member k (a :: l) = member k l.
Proof. intros H. unfold member; cbn [existsb]. replace (k =? a) with false by lia. reflexivity. Qed.

(** A strictly increasing list within a range is recovered by filtering the range. *)
Lemma filter_member l : forall a n,
  StronglySorted Z.lt l -> Forall (fun k => a <= k < a + Z.of_nat n) l ->
  filter (fun k => member k l) (zrange_n a n) = l.
Proof.
  intros a n; revert a l. induction n as [|n IH]; intros a l HS HF; cbn [zrange_n filter].
  - destruct l as [|x l]; [reflexivity|]. inversion HF; lia.
  - destruct l as [|x l].
    + cbn [member existsb]. apply (IH (a + 1) []); constructor.
    + inversion HS as [|? ? HS' Hx]; inversion HF as [|? ? Hx' HF']; subst.
      destruct (Z.eq_dec x a) as [->|N].
      * assert (M : member a (a :: l) = true) by (apply member_In; now left).
        rewrite M. f_equal.
        transitivity (filter (fun k => member k l) (zrange_n (a + 1) n)).
        -- apply filter_ext_in. intros k Hk. apply zrange_n_In in Hk.
           apply member_cons_lt; lia.
        -- apply IH; [exact HS'|]. rewrite Forall_forall in *. intros k Hk.
           specialize (Hx k Hk). specialize (HF' k Hk). lia.
      * assert (M : member a (x :: l) = false).
        { destruct (member a (x :: l)) eqn:M; [|reflexivity]. apply member_In in M.
          rewrite Forall_forall in *. destruct M as [M|M]; [lia|].
          specialize (Hx a M). lia. }
        rewrite M. apply IH; [exact HS|]. rewrite Forall_forall in *. intros k Hk.
        specialize (HF k Hk). destruct Hk as [<-|Hk]; [lia|]. specialize (Hx k Hk). lia.
Qed.

Lemma count_true_map {A} (f : A -> bool) l : count_true (map f l) = zlen (filter f l).
Proof.
  unfold count_true. induction l as [|x l IH]; [reflexivity|]. cbn [map filter].
  destruct (f x); rewrite ?zlen_cons, IH; reflexivity.
Qed.

Lemma zlen_mask_bits n l : 0 <= n -> zlen (mask_bits n l) = n.
Proof. intros H. unfold mask_bits. rewrite zlen_map. unfold zlen. rewrite zrange_length. lia. Qed.

Lemma count_mask n l : 0 <= n -> increasing_within n l -> count_true (mask_bits n l) = zlen l.
Proof.
  intros Hn [HS HF]. unfold mask_bits. rewrite count_true_map.
  unfold zrange. rewrite filter_member; [reflexivity|exact HS|].
  eapply Forall_impl; [|exact HF]. intros k Hk. cbv beta in *. lia.
Qed.

(** ** Columns *)
Lemma map_res_ext {A B} (f g : A -> res B) l :
  (forall x, In x l -> f x = g x) -> map_res f l = map_res g l.
Proof.
  induction l as [|x l IH]; intros H; cbn [map_res]; [reflexivity|].
  rewrite H by now left. rewrite IH by (intros; apply H; now right). reflexivity.
Qed.

Lemma map_res_shift {B} (f : Z -> res B) n : forall a,
  map_res f (zrange_n (a + 1) n) = map_res (fun i => f (i + 1)) (zrange_n a n).
Proof.
  induction n as [|n IH]; intros a; cbn [zrange_n map_res]; [reflexivity|].
  now rewrite IH.
Qed.

Section Column.
Context {A : Type} (buf : list Z) (w : nat) (bits : Z) (get : A -> Z).
Hypothesis Hbits : bits = Z.of_nat w.
Hypothesis Hw : 1 <= bits <= 128.

Lemma zrange_n_S a n : zrange_n a (S n) = a :: zrange_n (a + 1) n.
Proof. reflexivity. Qed.

Lemma zlen_column items : zlen (flat_map (fun x => enc w (get x)) items) = bits * zlen items.
Proof.
  induction items as [|x l IH]; [cbn; lia|].
  cbn [flat_map]. rewrite zlen_app, IH, zlen_enc, zlen_cons. lia.
Qed.

Lemma column_u_ok items : forall off off' n rest,
  at_bits buf off (flat_map (fun x => enc w (get x)) items ++ rest) ->
  off' = off -> n = zlen items -> Forall (fun x => fits_u w (get x)) items ->
  column_u buf off' bits n = Ok (map get items) /\ at_bits buf (off + bits * n) rest.
Proof.
  induction items as [|x l IH]; intros off off' n rest H -> -> HF.
  - cbn in *. split; [reflexivity|]. replace (off + bits * 0) with off by lia. exact H.
  - inversion HF as [|? ? Hx HF']; subst x0 l0. cbn [flat_map] in H. rewrite <- app_assoc in H.
    destruct (at_u_small _ _ _ _ _ _ _ H eq_refl Hbits Hw Hx) as [E H'].
    destruct (IH _ _ _ _ H' eq_refl eq_refl HF') as [E' H''].
    rewrite zlen_cons. split.
    + unfold column_u in *. unfold zrange in *.
      replace (Z.to_nat (1 + zlen l - 0)) with (S (Z.to_nat (zlen l - 0)))
        by (pose proof (zlen_nonneg l); lia).
      cbn [zrange_n map_res]. replace (off + 0 * bits) with off by lia. rewrite E. cbn [bind].
      change (0 + 1) with (0 + 1). rewrite map_res_shift.
      rewrite (map_res_ext _ (fun i => getbitu buf (off + bits + i * bits) bits)).
      * rewrite E'. reflexivity.
      * intros i _. f_equal. lia.
    + replace (off + bits * (1 + zlen l)) with (off + bits + bits * zlen l) by lia. exact H''.
Qed.

Lemma column_s_ok items : forall off off' n rest,
  at_bits buf off (flat_map (fun x => enc w (get x)) items ++ rest) ->
  off' = off -> n = zlen items -> Forall (fun x => fits_s w (get x)) items ->
  column_s buf off' bits n = Ok (map get items) /\ at_bits buf (off + bits * n) rest.
Proof.
  induction items as [|x l IH]; intros off off' n rest H -> -> HF.
  - cbn in *. split; [reflexivity|]. replace (off + bits * 0) with off by lia. exact H.
  - inversion HF as [|? ? Hx HF']; subst x0 l0. cbn [flat_map] in H. rewrite <- app_assoc in H.
    destruct (at_s _ _ _ _ _ _ _ H eq_refl Hbits Hw Hx) as [E H'].
    destruct (IH _ _ _ _ H' eq_refl eq_refl HF') as [E' H''].
    rewrite zlen_cons. split.
    + unfold column_s in *. unfold zrange in *.
      replace (Z.to_nat (1 + zlen l - 0)) with (S (Z.to_nat (zlen l - 0)))
        by (pose proof (zlen_nonneg l); lia).
      cbn [zrange_n map_res]. replace (off + 0 * bits) with off by lia. rewrite E. cbn [bind].
      rewrite map_res_shift.
      rewrite (map_res_ext _ (fun i => getbits buf (off + bits + i * bits) bits)).
      * rewrite E'. reflexivity.
      * intros i _. f_equal. lia.
    + replace (off + bits * (1 + zlen l)) with (off + bits + bits * zlen l) by lia. exact H''.
Qed.
End Column.

(** ** Header *)
Definition bytes_needed (nbits : Z) : Z := (nbits + 7) / 8.

Lemma at_list_u buf off off' len l rest :
  at_bits buf off (l ++ rest) -> off' = off -> len = zlen l -> 1 <= len <= 128 ->
  getbitu buf off' len = Ok (uval l) /\ at_bits buf (off + len) rest.
Proof.
  intros H -> -> Hl. destruct (at_field _ _ _ _ H Hl) as [Hi Hf]. split.
  - rewrite getbitu_ok by (try assumption; apply H). now rewrite Hf.
  - now apply at_next in H.
Qed.

Lemma zlen_cell_bits m : Forall (fun r => length (snd r) = length (m_sigs m)) (m_rows m) ->
  zlen (cell_bits m) = zlen (m_rows m) * zlen (m_sigs m).
Proof.
  unfold cell_bits. induction (m_rows m) as [|r l IH]; intros H; [reflexivity|].
  inversion H as [|? ? Hr Hl]; subst. cbn [flat_map].
  rewrite zlen_app, IH, zlen_map, zlen_cons by assumption. unfold zlen at 1. rewrite Hr.
  fold (zlen (m_sigs m)). lia.
Qed.

Lemma count_cells m : count_true (cell_bits m) = zlen (m_cells m).
Proof.
  unfold cell_bits, m_cells, count_true. induction (m_rows m) as [|r l IH]; [reflexivity|].
  cbn [flat_map]. rewrite filter_app, !zlen_app, IH. f_equal. clear.
  induction (snd r) as [|[c|] row IH]; cbn [map row_cells flat_map present filter app] in *;
    rewrite ?zlen_cons; unfold row_cells in *; rewrite ?IH; reflexivity.
Qed.

Lemma header_len m : zlen (header_bits m) = 169.
Proof. unfold header_bits. rewrite !zlen_app, !zlen_enc, !zlen_mask_bits by lia. reflexivity. Qed.

Lemma increasing_nonneg n l : increasing_within n l -> 0 <= zlen l.
Proof. intros _; apply zlen_nonneg. Qed.

Lemma extract_hdr_ok buf m rest L :
  header_ok m -> increasing_within 64 (map sd_id (m_sats m)) ->
  increasing_within 32 (m_sigs m) ->
  Forall (fun r => length (snd r) = length (m_sigs m)) (m_rows m) ->
  at_bits buf 24 (header_bits m ++ cell_bits m ++ rest) ->
  getbitu buf 14 10 = Ok L ->
  1 <= zlen (m_rows m) * zlen (m_sigs m) <= 64 ->
  169 + zlen (m_rows m) * zlen (m_sigs m) <= (L - 3) * 8 ->
  let off := 24 + 169 + zlen (m_rows m) * zlen (m_sigs m) in
  extract_hdr buf 24 = Ok (bare_header_of m, off) /\ at_bits buf off rest.
Proof.
  intros HH HS HG HR H HL HN HLen. cbv zeta.
  pose proof (zlen_nonneg (m_rows m)) as R0. pose proof (zlen_nonneg (m_sigs m)) as G0.
  destruct HH as (h1 & h2 & h3 & h4 & h5 & h6 & h7 & h8 & h9).
  assert (Nsat : bit_count (lsb_value (mask_bits 64 (map sd_id (m_sats m)))) = zlen (m_rows m)).
  { rewrite bit_count_lsb, count_mask by (try assumption; lia).
    unfold m_sats. now rewrite !zlen_map. }
  assert (Nsgn : bit_count (lsb_value (mask_bits 32 (m_sigs m))) = zlen (m_sigs m))
    by (rewrite bit_count_lsb, count_mask by (try assumption; lia); reflexivity).
  assert (NC : zlen (cell_bits m) = zlen (m_rows m) * zlen (m_sigs m)) by now apply zlen_cell_bits.
  unfold extract_hdr. rewrite HL. cbn [bind]. unfold MIN_HDR_LEN.
  replace ((L - 3) * 8 <? 169) with false by lia.
  unfold header_bits in H. rewrite <- !app_assoc in H.
  destruct (at_u _ _ 24 12 _ _ _ H eq_refl eq_refl ltac:(lia)) as [E1 H1].
  rewrite E1; cbn [bind].
  destruct (at_u_small _ _ (24 + 12) 12 _ _ _ H1 eq_refl eq_refl ltac:(lia) h1) as [E2 H2].
  rewrite E2; cbn [bind].
  destruct (at_u_small _ _ (24 + 12 + 12) 30 _ _ _ H2 eq_refl eq_refl ltac:(lia) h2) as [E3 H3].
  rewrite E3; cbn [bind].
  destruct (at_u_small _ _ (24 + 12 + 12 + 30) 1 _ _ _ H3 eq_refl eq_refl ltac:(lia) h3) as [E4 H4].
  rewrite E4; cbn [bind].
  destruct (at_u_small _ _ (24 + 12 + 12 + 30 + 1) 3 _ _ _ H4 eq_refl eq_refl ltac:(lia) h4) as [E5 H5].
  rewrite E5; cbn [bind].
  apply (at_skip _ _ (24 + 12 + 12 + 30 + 1 + (3 + 7))) in H5; [|rewrite zlen_enc; reflexivity].
  destruct (at_u_small _ _ _ 2 _ _ _ H5 eq_refl eq_refl ltac:(lia) h6) as [E6 H6].
  rewrite E6; cbn [bind].
  destruct (at_u_small _ _ _ 2 _ _ _ H6 eq_refl eq_refl ltac:(lia) h7) as [E7 H7].
  rewrite E7; cbn [bind].
  destruct (at_u_small _ _ _ 1 _ _ _ H7 eq_refl eq_refl ltac:(lia) h8) as [E8 H8].
  rewrite E8; cbn [bind].
  destruct (at_u_small _ _ _ 3 _ _ _ H8 eq_refl eq_refl ltac:(lia) h9) as [E9 H9].
  rewrite E9; cbn [bind].
  destruct (at_list_u _ _ _ 64 _ _ H9 eq_refl) as [E10 H10];
    [now rewrite zlen_mask_bits by lia | lia |].
  rewrite E10; cbn [bind].
  assert (RS := revbitu_lsb (mask_bits 64 (map sd_id (m_sats m)))).
  rewrite zlen_mask_bits in RS by lia. rewrite RS by lia. cbn [bind].
  destruct (at_list_u _ _ _ 32 _ _ H10 eq_refl) as [E11 H11];
    [now rewrite zlen_mask_bits by lia | lia |].
  rewrite E11; cbn [bind].
  assert (RG := revbitu_lsb (mask_bits 32 (m_sigs m))).
  rewrite zlen_mask_bits in RG by lia. rewrite RG by lia. cbn [bind].
  rewrite Nsat, Nsgn.
  set (N := zlen (m_rows m) * zlen (m_sigs m)) in *.
  assert (Rpos : zlen (m_rows m) <> 0) by (intros Z0; unfold N in HN; rewrite Z0 in HN; lia).
  replace (zlen (m_rows m) =? 0) with false by lia.
  replace (64 <? N) with false by lia.
  replace ((L - 3) * 8 - 169 <? N) with false by lia.
  destruct (at_list_u _ _ _ N _ _ H11 eq_refl) as [E12 H12]; [now rewrite NC|lia|].
  rewrite E12; cbn [bind].
  assert (RC := revbitu_lsb (cell_bits m)). rewrite NC in RC. rewrite RC by lia. cbn [bind].
  split; [|exact H12].
  reflexivity.
Qed.

(** ** Columns of each message type *)
Lemma flat_cells_sum {A} (items : list A) (cols : list (column A)) :
  zlen (flat_map (column_bits items) cols)
  = fold_right (fun (c : column A) acc => Z.of_nat (fst (fst c)) * zlen items + acc) 0 cols.
Proof.
  induction cols as [|[[w s] get] cols IH]; [reflexivity|].
  cbn [flat_map fold_right fst]. rewrite zlen_app, IH. f_equal.
  cbn [column_bits]. now rewrite (zlen_column w (Z.of_nat w) get eq_refl).
Qed.

Lemma msm_bits_len m :
  Forall (fun r => length (snd r) = length (m_sigs m)) (m_rows m) ->
  zlen (msm_bits m) = 169 + zlen (m_rows m) * zlen (m_sigs m) +
    fold_right (fun (c : column sat_data) acc => Z.of_nat (fst (fst c)) * zlen (m_rows m) + acc) 0
      (sat_columns (m_type m)) +
    fold_right (fun (c : column cell_data) acc => Z.of_nat (fst (fst c)) * zlen (m_cells m) + acc) 0
      (cell_columns (m_type m)).
Proof.
  intros HR. unfold msm_bits. rewrite !zlen_app, header_len, zlen_cell_bits by assumption.
  rewrite !flat_cells_sum. unfold m_sats at 1. rewrite zlen_map. lia.
Qed.

Definition is_type (a : attributes) (t : msm_type) : Prop := a_subset a = type_name t.

Ltac take_col H lem HC sg :=
  let E := fresh "E" in let H' := fresh "H'" in
  lazymatch type of H with
  | at_bits ?buf ?off (flat_map (fun x => enc ?w (?get x)) ?items ++ ?rest) =>
    let wz := eval cbv in (Z.of_nat w) in
    destruct (lem buf w wz get eq_refl ltac:(lia) items off off (zlen items) rest H eq_refl eq_refl)
      as [E H'];
    [ apply (HC (w, sg, get)); cbn; tauto
    | rewrite E; cbn [bind]; clear E; clear H; rename H' into H]
  end.

Ltac take_any H HSC HCC :=
  lazymatch type of H with
  | at_bits ?buf ?off (flat_map _ (m_sats _) ++ _) =>
    lazymatch goal with
    | |- context [column_u buf off _ _] => take_col H (@column_u_ok sat_data) HSC Unsigned
    | |- context [column_s buf off _ _] => take_col H (@column_s_ok sat_data) HSC Signed
    end
  | at_bits ?buf ?off (flat_map _ (m_cells _) ++ _) =>
    lazymatch goal with
    | |- context [column_u buf off _ _] => take_col H (@column_u_ok cell_data) HCC Unsigned
    | |- context [column_s buf off _ _] => take_col H (@column_s_ok cell_data) HCC Signed
    end
  end; cbn [next_bw bind].

Lemma extract4567_ok buf m off rest :
  In (m_type m) [MSM4; MSM5; MSM6; MSM7] ->
  (forall c, In c (sat_columns (m_type m)) -> Forall (fits c) (m_sats m)) ->
  (forall c, In c (cell_columns (m_type m)) -> Forall (fits c) (m_cells m)) ->
  increasing_within 64 (map sd_id (m_sats m)) -> increasing_within 32 (m_sigs m) ->
  m_cells m <> [] -> m_sigs m <> [] ->
  Forall (fun r => length (snd r) = length (m_sigs m)) (m_rows m) ->
  off = 24 + 169 + zlen (m_rows m) * zlen (m_sigs m) ->
  at_bits buf off (flat_map (column_bits (m_sats m)) (sat_columns (m_type m)) ++
                   flat_map (column_bits (m_cells m)) (cell_columns (m_type m)) ++ rest) ->
  zlen buf = (zlen (msm_bits m) + 7) / 8 + 6 ->
  exists s g,
    extract_observables4567 buf (attributes_of m) (bare_header_of m) off = Ok (s, g) /\
    bare_of m = Bare4567 (attributes_of m) (bare_header_of m) s g.
Proof.
  intros HT HSC HCC HS HG HN HN' HR Hoff H HL.
  assert (Nsat : bit_count (h_sat_mask (bare_header_of m)) = zlen (m_sats m)).
  { cbn [h_sat_mask bare_header_of]. rewrite bit_count_lsb, count_mask by (try assumption; lia).
    now rewrite !zlen_map. }
  assert (Nsgn : bit_count (h_sgn_mask (bare_header_of m)) = zlen (m_sigs m))
    by (cbn [h_sgn_mask bare_header_of]; rewrite bit_count_lsb, count_mask by (try assumption; lia);
        reflexivity).
  assert (Ncell : bit_count (h_cell_mask (bare_header_of m)) = zlen (m_cells m))
    by (cbn [h_cell_mask bare_header_of]; rewrite bit_count_lsb; apply count_cells).
  rewrite msm_bits_len in HL by assumption.
  assert (RS : zlen (m_rows m) = zlen (m_sats m)) by (unfold m_sats; now rewrite zlen_map).
  rewrite RS in *.
  assert (C0 : zlen (m_cells m) <> 0)
    by (destruct (m_cells m); [congruence|rewrite zlen_cons; pose proof (zlen_nonneg l); lia]).
  assert (G0 : zlen (m_sigs m) <> 0)
    by (destruct (m_sigs m); [congruence|rewrite zlen_cons; pose proof (zlen_nonneg l); lia]).
  assert (S0 : zlen (m_sats m) <> 0).
  { rewrite <- RS. unfold m_cells in HN. destruct (m_rows m); [cbn in HN; congruence|].
    rewrite zlen_cons. pose proof (zlen_nonneg l). lia. }
  unfold extract_observables4567. rewrite Nsat, Nsgn, Ncell.
  replace (_ || _ || _) with false by lia.
  unfold bare_of.
  destruct (m_type m) eqn:T; cbn [In] in HT;
    try (exfalso; intuition discriminate); clear HT.
  all: unfold is_msm7, is_msm6, is_msm5, is_msm4, attributes_of; rewrite T; cbn [a_subset type_name].
  all: repeat (match goal with |- context [String.eqb ?a ?b] =>
         let v := eval vm_compute in (String.eqb a b) in change (String.eqb a b) with v end).
  all: cbn [orb].
  all: cbn [sat_columns cell_columns flat_map column_bits fold_right fst] in *.
  all: rewrite ?app_nil_r in H; rewrite <- ?app_assoc in H.
  all: change (Z.of_nat 8) with 8 in *; change (Z.of_nat 4) with 4 in *;
       change (Z.of_nat 10) with 10 in *; change (Z.of_nat 14) with 14 in *;
       change (Z.of_nat 15) with 15 in *; change (Z.of_nat 22) with 22 in *;
       change (Z.of_nat 1) with 1 in *; change (Z.of_nat 6) with 6 in *;
       change (Z.of_nat 20) with 20 in *; change (Z.of_nat 24) with 24 in *.
  all: rewrite Z.shiftr_div_pow2 by lia; change (2 ^ 3) with 8.
  all: match goal with |- context [negb (?a =? zlen ?b)] =>
         replace (negb (a =? zlen b)) with false by lia end.
  all: unfold BIT_WIDTH_7, BIT_WIDTH_6, BIT_WIDTH_5, BIT_WIDTH_4; cbn [next_bw bind].
  all: repeat take_any H HSC HCC.
  all: rewrite Z.shiftr_div_pow2 by lia; change (2 ^ 3) with 8.
  all: match goal with |- context [negb (?a =? ?b)] => replace (negb (a =? b)) with false by lia end.
  all: eexists; eexists; split; reflexivity.
Qed.

Lemma passes_dec m : {passes_length_check m} + {~ passes_length_check m}.
Proof. unfold passes_length_check. apply Z.eq_dec. Qed.

Lemma extract123_ok buf m off rest :
  In (m_type m) [MSM1; MSM2; MSM3] ->
  (forall c, In c (sat_columns (m_type m)) -> Forall (fits c) (m_sats m)) ->
  (forall c, In c (cell_columns (m_type m)) -> Forall (fits c) (m_cells m)) ->
  increasing_within 64 (map sd_id (m_sats m)) -> increasing_within 32 (m_sigs m) ->
  m_cells m <> [] -> m_sigs m <> [] ->
  Forall (fun r => length (snd r) = length (m_sigs m)) (m_rows m) ->
  off = 24 + 169 + zlen (m_rows m) * zlen (m_sigs m) ->
  at_bits buf off (flat_map (column_bits (m_sats m)) (sat_columns (m_type m)) ++
                   flat_map (column_bits (m_cells m)) (cell_columns (m_type m)) ++ rest) ->
  zlen buf = (zlen (msm_bits m) + 7) / 8 + 6 ->
  (passes_length_check m ->
   exists s g,
    extract_observables123 buf (attributes_of m) (bare_header_of m) off = Ok (s, g) /\
    bare_of m = Bare123 (attributes_of m) (bare_header_of m) s g) /\
  (~ passes_length_check m ->
    extract_observables123 buf (attributes_of m) (bare_header_of m) off = Err EBareData).
Proof.
  intros HT HSC HCC HS HG HN HN' HR Hoff H HL.
  assert (Nsat : bit_count (h_sat_mask (bare_header_of m)) = zlen (m_sats m)).
  { cbn [h_sat_mask bare_header_of]. rewrite bit_count_lsb, count_mask by (try assumption; lia).
    now rewrite !zlen_map. }
  assert (Nsgn : bit_count (h_sgn_mask (bare_header_of m)) = zlen (m_sigs m))
    by (cbn [h_sgn_mask bare_header_of]; rewrite bit_count_lsb, count_mask by (try assumption; lia);
        reflexivity).
  assert (Ncell : bit_count (h_cell_mask (bare_header_of m)) = zlen (m_cells m))
    by (cbn [h_cell_mask bare_header_of]; rewrite bit_count_lsb; apply count_cells).
  unfold passes_length_check, length_check_slack.
  rewrite msm_bits_len in * by assumption.
  assert (RS : zlen (m_rows m) = zlen (m_sats m)) by (unfold m_sats; now rewrite zlen_map).
  rewrite RS in *.
  assert (C0 : zlen (m_cells m) <> 0)
    by (destruct (m_cells m); [congruence|rewrite zlen_cons; pose proof (zlen_nonneg l); lia]).
  assert (G0 : zlen (m_sigs m) <> 0)
    by (destruct (m_sigs m); [congruence|rewrite zlen_cons; pose proof (zlen_nonneg l); lia]).
  assert (S0 : zlen (m_sats m) <> 0).
  { rewrite <- RS. unfold m_cells in HN. destruct (m_rows m); [cbn in HN; congruence|].
    rewrite zlen_cons. pose proof (zlen_nonneg l). lia. }
  unfold extract_observables123. rewrite Nsat, Nsgn, Ncell.
  replace (_ || _ || _) with false by lia.
  unfold bare_of.
  destruct (m_type m) eqn:T; cbn [In] in HT;
    try (exfalso; intuition discriminate); clear HT.
  all: unfold is_msm1, is_msm2, is_msm3, attributes_of; rewrite T; cbn [a_subset type_name].
  all: repeat (match goal with |- context [String.eqb ?a ?b] =>
         let v := eval vm_compute in (String.eqb a b) in change (String.eqb a b) with v end).
  all: cbn [orb].
  all: cbn [sat_columns cell_columns flat_map column_bits fold_right fst] in *.
  all: rewrite ?app_nil_r in H; rewrite <- ?app_assoc in H.
  all: change (Z.of_nat 4) with 4 in *;
       change (Z.of_nat 10) with 10 in *;
       change (Z.of_nat 15) with 15 in *; change (Z.of_nat 22) with 22 in *;
       change (Z.of_nat 1) with 1 in *.
  all: rewrite Z.shiftr_div_pow2 by lia; change (2 ^ 3) with 8.
  all: split; intros P;
    [ match goal with |- context [negb (?a =? ?b)] => replace (negb (a =? b)) with false by lia end
    | match goal with |- context [negb (?a =? ?b)] => replace (negb (a =? b)) with true by lia end;
      reflexivity ].
  all: cbn [next_bw bind BIT_WIDTH_1 BIT_WIDTH_2 BIT_WIDTH_3].
  all: repeat take_any H HSC HCC.
  all: rewrite Z.shiftr_div_pow2 by lia; change (2 ^ 3) with 8.
  all: match goal with |- context [negb (?a =? ?b)] => replace (negb (a =? b)) with false by lia end.
  all: eexists; eexists; split; reflexivity.
Qed.

(** ** Whole messages *)
Lemma msm_subset_ok g t : msm_subset (msm_number g t) = (gnss_letter g, type_name t).
Proof. destruct g, t; vm_compute; reflexivity. Qed.

Lemma msm_number_fits g t : fits_u 12 (msm_number g t).
Proof. destruct g, t; vm_compute; split; congruence. Qed.

Lemma carries_at buf bits :
  carries buf bits -> exists rest,
    at_bits buf 24 (bits ++ rest) /\ getbitu buf 14 10 = Ok ((zlen bits + 7) / 8) /\
    zlen buf = (zlen bits + 7) / 8 + 6 /\ bytes_ok buf /\ (zlen bits + 7) / 8 <= 1023.
Proof.
  intros (payload & crc & pad & TF & B & P).
  destruct (frame_at _ _ _ TF) as (A & L & Z0 & Bb).
  assert (E : zlen payload = (zlen bits + 7) / 8).
  { assert (X : zlen (bits_of payload) = zlen (bits ++ pad)) by now rewrite B.
    rewrite zlen_bits_of, zlen_app in X. pose proof (zlen_nonneg pad). lia. }
  exists (pad ++ bits_of crc). rewrite B, <- app_assoc in A. rewrite <- E.
  repeat split; try assumption; try (apply A). apply TF.
Qed.

Lemma cells_sigs m : Forall (fun r => length (snd r) = length (m_sigs m)) (m_rows m) ->
  m_cells m <> [] -> m_sigs m <> [] /\ m_rows m <> [].
Proof.
  intros HR HN. split; intros E.
  - apply HN. unfold m_cells. rewrite E in HR. clear HN E.
    induction HR as [|r l Hr Hl IH]; [reflexivity|]. cbn [flat_map]. rewrite IH.
    destruct (snd r); [reflexivity|discriminate].
  - apply HN. unfold m_cells. now rewrite E.
Qed.

Lemma zlen_pos {A} (l : list A) : l <> [] -> 1 <= zlen l.
Proof. destruct l; [congruence|]. intros _. rewrite zlen_cons. pose proof (zlen_nonneg l). lia. Qed.

Lemma cells_le m : zlen (m_cells m) >= 0.
Proof. pose proof (zlen_nonneg (m_cells m)). lia. Qed.

Lemma get_msg_num_ok buf m rest :
  at_bits buf 24 (msm_bits m ++ rest) ->
  get_msg_num buf = Ok (Some (msm_number (m_gnss m) (m_type m))).
Proof.
  intros H. unfold msm_bits, header_bits in H. rewrite <- !app_assoc in H.
  destruct (at_u_small _ _ 24 12 _ _ _ H eq_refl eq_refl ltac:(lia) (msm_number_fits _ _)) as [E _].
  unfold get_msg_num. now rewrite E.
Qed.

Lemma columns_min m : msm_ok m -> m_cells m <> [] ->
  169 + zlen (m_rows m) * zlen (m_sigs m) + 25 <= zlen (msm_bits m).
Proof.
  intros (HH & HS & HG & HR & H64 & HSC & HCC) HN.
  rewrite msm_bits_len by assumption.
  destruct (cells_sigs m HR HN) as [_ RN]. apply zlen_pos in HN, RN.
  destruct (m_type m); cbn [sat_columns cell_columns fold_right fst]; lia.
Qed.

Lemma mask_nonzero m : msm_ok m -> m_cells m <> [] ->
  (h_sat_mask (bare_header_of m) =? 0) = false.
Proof.
  intros (HH & HS & HG & HR & H64 & HSC & HCC) HN.
  destruct (cells_sigs m HR HN) as [_ RN].
  apply Z.eqb_neq. cbn [h_sat_mask bare_header_of]. rewrite lsb_value_zero.
  rewrite count_mask by (try assumption; lia). rewrite zlen_map. unfold m_sats. rewrite zlen_map.
  apply zlen_pos in RN. lia.
Qed.

Lemma bare_decode_ok buf m :
  msm_ok m -> msm_nonempty m -> carries buf (msm_bits m) ->
  (passes_length_check m -> bare_decode buf = Ok (bare_of m)) /\
  (~ passes_length_check m -> bare_decode buf = Err EBareData).
Proof.
  intros OK HN HC. pose proof (columns_min m OK HN) as CM. pose proof (mask_nonzero m OK HN) as MN.
  destruct OK as (HH & HS & HG & HR & H64 & HSC & HCC).
  destruct (carries_at _ _ HC) as (rest & A & L & ZL & B & _).
  pose proof (get_msg_num_ok _ _ _ A) as N.
  destruct (cells_sigs m HR HN) as [GN RN].
  unfold bare_decode. rewrite N. cbn [bind]. rewrite msm_subset_ok.
  fold (attributes_of m).
  change {| a_gnss := gnss_letter (m_gnss m); a_subset := type_name (m_type m);
            a_msg_number := msm_number (m_gnss m) (m_type m) |} with (attributes_of m).
  unfold msm_bits in A. rewrite <- !app_assoc in A.
  pose proof (zlen_pos _ GN) as G1. pose proof (zlen_pos _ RN) as R1.
  destruct (extract_hdr_ok buf m _ _ HH HS HG HR A L) as [E A']; [nia|lia|].
  assert (T : (In (m_type m) [MSM1; MSM2; MSM3] \/ In (m_type m) [MSM4; MSM5; MSM6; MSM7]))
    by (destruct (m_type m); cbn; tauto).
  destruct T as [T|T].
  - replace (is_msm1 (attributes_of m) || is_msm2 (attributes_of m) || is_msm3 (attributes_of m)) with true
      by (unfold is_msm1, is_msm2, is_msm3, attributes_of; cbn [a_subset];
          cbn [In] in T; destruct T as [<-|[<-|[<-|[]]]]; reflexivity).
    rewrite E. cbn [bind]. rewrite MN.
    destruct (extract123_ok buf m _ _ T HSC HCC HS HG HN GN HR eq_refl A' ZL) as [X Y].
    split; intros P.
    + destruct (X P) as (s & g & -> & ->). reflexivity.
    + rewrite (Y P). reflexivity.
  - replace (is_msm1 (attributes_of m) || is_msm2 (attributes_of m) || is_msm3 (attributes_of m)) with false
      by (unfold is_msm1, is_msm2, is_msm3, attributes_of; cbn [a_subset];
          cbn [In] in T; destruct T as [<-|[<-|[<-|[<-|[]]]]]; reflexivity).
    replace (is_msm4 (attributes_of m) || is_msm5 (attributes_of m) || is_msm6 (attributes_of m)
             || is_msm7 (attributes_of m)) with true
      by (unfold is_msm4, is_msm5, is_msm6, is_msm7, attributes_of; cbn [a_subset];
          cbn [In] in T; destruct T as [<-|[<-|[<-|[<-|[]]]]]; reflexivity).
    rewrite E. cbn [bind]. rewrite MN.
    destruct (extract4567_ok buf m _ _ T HSC HCC HS HG HN GN HR eq_refl A' ZL) as (s & g & X & Y).
    rewrite X, Y. split; [reflexivity|].
    intros P; exfalso; apply P. unfold passes_length_check, length_check_slack.
    cbn [In] in T; destruct T as [<-|[<-|[<-|[<-|[]]]]]; f_equal; lia.
Qed.
