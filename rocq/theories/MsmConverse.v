(** * MsmConverse: whatever the bare MSM decoder accepts is the encoding of a well-formed
    message. *)
From Coq Require Import Sorted.
From Verif Require Import PyBase PyDict BitsModel BitsSpec BitsProofs TablesModel
  MessageSpec ReadProofs MsmModel MsmSpec MsmProofs.
Local Open Scope list_scope.
Local Open Scope Z_scope.

Lemma map_nth_seq {A} (d : A) l : map (fun i => nth i l d) (seq 0 (length l)) = l.
Proof.
  induction l as [|x l IH]; [reflexivity|]. cbn [length seq map nth]. f_equal.
  rewrite <- seq_shift, map_map. exact IH.
Qed.

Lemma enc_uval_w w l : length l = w -> enc w (uval l) = l /\ fits_u w (uval l).
Proof. intros <-. split; [apply enc_uval|apply uval_bound]. Qed.

Lemma enc_sval_w w l : (0 < w)%nat -> length l = w -> enc w (sval l) = l /\ fits_s w (sval l).
Proof.
  intros W <-. split; [apply enc_sval|]. apply sval_range. intros ->. cbn in W. lia.
Qed.

(** Any bit string of [w * n] bits is a column of [n] values. *)
Lemma as_column_u w n : forall l, zlen l = Z.of_nat w * Z.of_nat n ->
  exists vs, length vs = n /\ l = flat_map (enc w) vs /\ Forall (fits_u w) vs.
Proof.
  induction n as [|n IH]; intros l H.
  - exists []. destruct l as [|b l]; [repeat split; constructor|].
    rewrite zlen_cons in H. pose proof (zlen_nonneg l). lia.
  - destruct (IH (skipn w l)) as (vs & Lv & E & F).
    { unfold zlen in *. rewrite skipn_length. lia. }
    assert (Lw : length (firstn w l) = w) by (rewrite firstn_length; unfold zlen in H; nia).
    destruct (enc_uval_w _ _ Lw) as [E1 F1].
    exists (uval (firstn w l) :: vs). cbn [length flat_map]. split; [now rewrite Lv|]. split.
    + now rewrite <- E, E1, firstn_skipn.
    + now constructor.
Qed.

Lemma as_column_s w n : (0 < w)%nat -> forall l, zlen l = Z.of_nat w * Z.of_nat n ->
  exists vs, length vs = n /\ l = flat_map (enc w) vs /\ Forall (fits_s w) vs.
Proof.
  intros W. induction n as [|n IH]; intros l H.
  - exists []. destruct l as [|b l]; [repeat split; constructor|].
    rewrite zlen_cons in H. pose proof (zlen_nonneg l). lia.
  - destruct (IH (skipn w l)) as (vs & Lv & E & F).
    { unfold zlen in *. rewrite skipn_length. lia. }
    assert (Lw : length (firstn w l) = w) by (rewrite firstn_length; unfold zlen in H; nia).
    destruct (enc_sval_w _ _ W Lw) as [E1 F1].
    exists (sval (firstn w l) :: vs). cbn [length flat_map]. split; [now rewrite Lv|]. split.
    + now rewrite <- E, E1, firstn_skipn.
    + now constructor.
Qed.

(** ** Masks *)
Definition set_numbers (l : list bool) : list Z :=
  filter (fun k => nth (Z.to_nat (k - 1)) l false) (zrange 1 (zlen l + 1)).

Lemma zrange_n_sorted n : forall a, StronglySorted Z.lt (zrange_n a n).
Proof.
  induction n as [|n IH]; intros a; cbn [zrange_n]; constructor; [apply IH|].
  apply Forall_forall. intros k Hk. apply zrange_n_In in Hk. lia.
Qed.

Lemma filter_sorted (f : Z -> bool) l : StronglySorted Z.lt l -> StronglySorted Z.lt (filter f l).
Proof.
  induction 1 as [|x l H IH F]; cbn [filter]; [constructor|].
  destruct (f x); [|exact IH]. constructor; [exact IH|].
  apply Forall_forall. intros k Hk. apply filter_In in Hk.
  rewrite Forall_forall in F. apply F, Hk.
Qed.

Lemma set_numbers_ok l n : zlen l = n ->
  increasing_within n (set_numbers l) /\ mask_bits n (set_numbers l) = l /\
  zlen (set_numbers l) = count_true l.
Proof.
  intros <-.
  assert (I : increasing_within (zlen l) (set_numbers l)).
  { split; [apply filter_sorted, zrange_n_sorted|].
    apply Forall_forall. intros k Hk. apply filter_In in Hk. destruct Hk as [Hk _].
    apply zrange_In in Hk. lia. }
  assert (M : mask_bits (zlen l) (set_numbers l) = l).
  { unfold mask_bits.
    transitivity (map (fun k => nth (Z.to_nat (k - 1)) l false) (zrange 1 (zlen l + 1))).
    - apply map_ext_in. intros k Hk. unfold set_numbers.
      destruct (nth (Z.to_nat (k - 1)) l false) eqn:E.
      + apply member_In. apply filter_In. now split.
      + destruct (member k _) eqn:X; [|reflexivity]. apply member_In, filter_In in X.
        destruct X; congruence.
    - transitivity (map (fun i => nth i l false) (seq 0 (length l))); [|apply map_nth_seq].
      assert (G : forall n a, 0 <= a -> map (fun k => nth (Z.to_nat (k - 1)) l false) (zrange_n (a + 1) n)
                  = map (fun i => nth i l false) (seq (Z.to_nat a) n)).
      { clear. induction n as [|n IH]; intros a Ha; [reflexivity|]. cbn [zrange_n seq map].
        rewrite IH by lia. f_equal; [f_equal; lia|]. f_equal. f_equal. lia. }
      unfold zrange. replace (Z.to_nat (zlen l + 1 - 1)) with (length l) by (unfold zlen; lia).
      apply (G (length l) 0). lia. }
  split; [exact I|]. split; [exact M|].
  rewrite <- M at 2. now rewrite count_mask by (try assumption; apply zlen_nonneg).
Qed.

(** ** Rows *)
Fixpoint fill (flags : list bool) (cells : list cell_data) : list (option cell_data) :=
  match flags, cells with
  | [], _ => []
  | false :: f, _ => None :: fill f cells
  | true :: f, c :: cs => Some c :: fill f cs
  | true :: f, [] => None :: fill f []
  end.

Lemma fill_ok flags : forall cells, zlen cells = count_true flags ->
  map present (fill flags cells) = flags /\ row_cells (fill flags cells) = cells.
Proof.
  induction flags as [|b f IH]; intros cells H.
  - cbn. split; [reflexivity|]. destruct cells; [reflexivity|].
    unfold count_true in H. cbn [filter] in H. rewrite zlen_cons, zlen_nil in H.
    pose proof (zlen_nonneg cells). lia.
  - unfold count_true in H. cbn [filter] in H. destruct b.
    + rewrite zlen_cons in H. destruct cells as [|c cs].
      * pose proof (zlen_nonneg (filter (fun b => b) f)). rewrite zlen_nil in H. lia.
      * rewrite zlen_cons in H. destruct (IH cs) as [E1 E2]; [unfold count_true; lia|].
        cbn [fill map present row_cells flat_map app]. unfold row_cells in *. now rewrite E1, E2.
    + destruct (IH cells) as [E1 E2]; [exact H|].
      cbn [fill map present row_cells flat_map app]. unfold row_cells in *. now rewrite E1, E2.
Qed.

Fixpoint chunks {A} (n G : nat) (l : list A) : list (list A) :=
  match n with O => [] | S k => firstn G l :: chunks k G (skipn G l) end.

Lemma chunks_ok {A} n G : forall l : list A, length l = (n * G)%nat ->
  concat (chunks n G l) = l /\ length (chunks n G l) = n /\
  Forall (fun c => length c = G) (chunks n G l).
Proof.
  induction n as [|n IH]; intros l H; cbn [chunks].
  - destruct l; [repeat split; constructor|discriminate].
  - destruct (IH (skipn G l)) as (E1 & E2 & E3); [rewrite skipn_length; lia|].
    cbn [concat length]. rewrite E1, E2, firstn_skipn. repeat split.
    constructor; [rewrite firstn_length; lia|exact E3].
Qed.

Lemma combine_fst {A B} (a : list A) : forall b : list B, length a = length b -> map fst (combine a b) = a.
Proof. induction a; intros [|y b] H; cbn in *; try congruence. f_equal. apply IHa; lia. Qed.
Lemma combine_snd {A B} (a : list A) : forall b : list B, length a = length b -> map snd (combine a b) = b.
Proof. induction a; intros [|y b] H; cbn in *; try congruence. f_equal. apply IHa; lia. Qed.

Lemma flat_map_snd {A B C} (f : B -> list C) (l : list (A * B)) :
  flat_map (fun r => f (snd r)) l = flat_map f (map snd l).
Proof. induction l as [|x l IH]; [reflexivity|]. cbn. now rewrite IH. Qed.

Lemma rows_parse (sats : list sat_data) (G : nat) flags cells :
  length flags = (length sats * G)%nat -> zlen cells = count_true flags ->
  exists rows : list (sat_data * list (option cell_data)),
    map fst rows = sats /\ Forall (fun r => length (snd r) = G) rows /\
    flat_map (fun r => map present (snd r)) rows = flags /\
    flat_map (fun r => row_cells (snd r)) rows = cells.
Proof.
  intros HL HC. destruct (fill_ok flags cells HC) as [E1 E2].
  assert (L : length (fill flags cells) = (length sats * G)%nat)
    by (rewrite <- (map_length present), E1; exact HL).
  destruct (chunks_ok _ _ _ L) as (C1 & C2 & C3).
  set (ch := chunks (length sats) G (fill flags cells)) in *.
  exists (combine sats ch). rewrite combine_fst by congruence. split; [reflexivity|]. split.
  - apply Forall_forall. intros [s c] Hr. apply in_combine_r in Hr. rewrite Forall_forall in C3.
    now apply C3.
  - rewrite (flat_map_snd (map present)), (flat_map_snd row_cells), combine_snd by congruence.
    split.
    + rewrite flat_map_concat_map, <- concat_map, C1. exact E1.
    + rewrite <- E2, <- C1 at 1. clear. induction ch as [|c ch IH]; [reflexivity|].
      cbn [flat_map concat]. unfold row_cells in *. rewrite IH, flat_map_app. reflexivity.
Qed.

(** ** Satellites and cells from columns *)
Definition sats_of (ids ms ext rough rate : list Z) : list sat_data :=
  map (fun i => {| sd_id := nth i ids 0; sd_ms := nth i ms 0; sd_ext := nth i ext 0;
                   sd_rough := nth i rough 0; sd_rate := nth i rate 0 |}) (seq 0 (length ids)).
Definition cells_of (n : nat) (rng phs lock half cnr rate : list Z) : list cell_data :=
  map (fun i => {| cd_rng := nth i rng 0; cd_phs := nth i phs 0; cd_lock := nth i lock 0;
                   cd_half := nth i half 0; cd_cnr := nth i cnr 0; cd_rate := nth i rate 0 |})
      (seq 0 n).

Lemma col_bits_map {A} (items : list A) w (get : A -> Z) vs :
  map get items = vs -> flat_map (fun x => enc w (get x)) items = flat_map (enc w) vs.
Proof. intros <-. induction items as [|x l IH]; [reflexivity|]. cbn. now rewrite IH. Qed.

Lemma Forall_get {A} (P : Z -> Prop) (get : A -> Z) items vs :
  map get items = vs -> Forall P vs -> Forall (fun x => P (get x)) items.
Proof. intros <- H. now rewrite Forall_map in H. Qed.

Lemma split_bits (l : list bool) n : 0 <= n <= zlen l -> exists a b, l = a ++ b /\ zlen a = n /\ zlen b = zlen l - n.
Proof.
  intros H. exists (firstn (Z.to_nat n) l), (skipn (Z.to_nat n) l). rewrite firstn_skipn.
  split; [reflexivity|]. unfold zlen in *. rewrite firstn_length, skipn_length. lia.
Qed.

Definition width_of {A} (cols : list (column A)) : Z :=
  fold_right (fun (c : column A) acc => Z.of_nat (fst (fst c)) + acc) 0 cols.

Lemma sat_parse t ids bits :
  zlen bits = width_of (sat_columns t) * zlen ids ->
  exists sats, map sd_id sats = ids /\ flat_map (column_bits sats) (sat_columns t) = bits /\
    (forall c, In c (sat_columns t) -> Forall (fits c) sats).
Proof.
  intros H. set (n := length ids).
  assert (T : (sat_columns t = [(10%nat, Unsigned, sd_rough)]) \/
    sat_columns t = [(8%nat, Unsigned, sd_ms); (10%nat, Unsigned, sd_rough)] \/
    sat_columns t = [(8%nat, Unsigned, sd_ms); (4%nat, Unsigned, sd_ext);
                    (10%nat, Unsigned, sd_rough); (14%nat, Signed, sd_rate)])
    by (destruct t; cbn [sat_columns]; tauto).
  assert (Zn : zlen ids = Z.of_nat n) by reflexivity.
  destruct T as [T|[T|T]]; rewrite T in *; cbn [width_of fold_right fst] in H.
  - destruct (as_column_u 10 n bits) as (v1 & L1 & E1 & F1); [lia|].
    exists (sats_of ids [] [] v1 []).
    assert (M0 : map sd_id (sats_of ids [] [] v1 []) = ids)
      by (unfold sats_of; rewrite map_map; apply map_nth_seq).
    assert (M1 : map sd_rough (sats_of ids [] [] v1 []) = v1)
      by (unfold sats_of; rewrite map_map; fold n; rewrite <- L1; apply map_nth_seq).
    split; [exact M0|]. cbn [flat_map column_bits]. rewrite app_nil_r.
    rewrite (col_bits_map _ _ _ _ M1). split; [now symmetry|].
    intros c [<-|[]]. exact (Forall_get _ _ _ _ M1 F1).
  - destruct (split_bits bits (8 * zlen ids)) as (a & b & E & La & Lb); [lia|].
    destruct (as_column_u 8 n a) as (v1 & L1 & E1 & F1); [lia|].
    destruct (as_column_u 10 n b) as (v2 & L2 & E2 & F2); [lia|].
    exists (sats_of ids v1 [] v2 []).
    assert (M0 : map sd_id (sats_of ids v1 [] v2 []) = ids)
      by (unfold sats_of; rewrite map_map; apply map_nth_seq).
    assert (M1 : map sd_ms (sats_of ids v1 [] v2 []) = v1)
      by (unfold sats_of; rewrite map_map; fold n; rewrite <- L1; apply map_nth_seq).
    assert (M2 : map sd_rough (sats_of ids v1 [] v2 []) = v2)
      by (unfold sats_of; rewrite map_map; fold n; rewrite <- L2; apply map_nth_seq).
    split; [exact M0|]. cbn [flat_map column_bits]. rewrite app_nil_r.
    rewrite (col_bits_map _ _ _ _ M1), (col_bits_map _ _ _ _ M2). split; [now rewrite E, E1, E2|].
    intros c [<-|[<-|[]]]; [exact (Forall_get _ _ _ _ M1 F1)|exact (Forall_get _ _ _ _ M2 F2)].
  - destruct (split_bits bits (8 * zlen ids)) as (a & b & E & La & Lb); [lia|].
    destruct (split_bits b (4 * zlen ids)) as (a2 & b2 & E' & La2 & Lb2); [lia|].
    destruct (split_bits b2 (10 * zlen ids)) as (a3 & b3 & E'' & La3 & Lb3); [lia|].
    destruct (as_column_u 8 n a) as (v1 & L1 & E1 & F1); [lia|].
    destruct (as_column_u 4 n a2) as (v2 & L2 & E2 & F2); [lia|].
    destruct (as_column_u 10 n a3) as (v3 & L3 & E3 & F3); [lia|].
    destruct (as_column_s 14 n ltac:(lia) b3) as (v4 & L4 & E4 & F4); [lia|].
    exists (sats_of ids v1 v2 v3 v4).
    assert (M0 : map sd_id (sats_of ids v1 v2 v3 v4) = ids)
      by (unfold sats_of; rewrite map_map; apply map_nth_seq).
    assert (M1 : map sd_ms (sats_of ids v1 v2 v3 v4) = v1)
      by (unfold sats_of; rewrite map_map; fold n; rewrite <- L1; apply map_nth_seq).
    assert (M2 : map sd_ext (sats_of ids v1 v2 v3 v4) = v2)
      by (unfold sats_of; rewrite map_map; fold n; rewrite <- L2; apply map_nth_seq).
    assert (M3 : map sd_rough (sats_of ids v1 v2 v3 v4) = v3)
      by (unfold sats_of; rewrite map_map; fold n; rewrite <- L3; apply map_nth_seq).
    assert (M4 : map sd_rate (sats_of ids v1 v2 v3 v4) = v4)
      by (unfold sats_of; rewrite map_map; fold n; rewrite <- L4; apply map_nth_seq).
    split; [exact M0|]. cbn [flat_map column_bits]. rewrite app_nil_r.
    rewrite (col_bits_map _ _ _ _ M1), (col_bits_map _ _ _ _ M2), (col_bits_map _ _ _ _ M3),
      (col_bits_map _ _ _ _ M4).
    split; [now rewrite E, E', E'', E1, E2, E3, E4|].
    intros c [<-|[<-|[<-|[<-|[]]]]];
      [exact (Forall_get _ _ _ _ M1 F1)|exact (Forall_get _ _ _ _ M2 F2)
      |exact (Forall_get _ _ _ _ M3 F3)|exact (Forall_get _ _ _ _ M4 F4)].
Qed.

Lemma cell_parse6 (wr wp wl wh wc wd : nat) n bits :
  zlen bits = (Z.of_nat wr + Z.of_nat wp + Z.of_nat wl + Z.of_nat wh + Z.of_nat wc + Z.of_nat wd)
              * Z.of_nat n ->
  exists cells, length cells = n /\
    bits = flat_map (fun x => enc wr (cd_rng x)) cells ++ flat_map (fun x => enc wp (cd_phs x)) cells ++
           flat_map (fun x => enc wl (cd_lock x)) cells ++ flat_map (fun x => enc wh (cd_half x)) cells ++
           flat_map (fun x => enc wc (cd_cnr x)) cells ++ flat_map (fun x => enc wd (cd_rate x)) cells /\
    ((0 < wr)%nat -> Forall (fun x => fits_s wr (cd_rng x)) cells) /\
    ((0 < wp)%nat -> Forall (fun x => fits_s wp (cd_phs x)) cells) /\
    Forall (fun x => fits_u wl (cd_lock x)) cells /\
    Forall (fun x => fits_u wh (cd_half x)) cells /\
    Forall (fun x => fits_u wc (cd_cnr x)) cells /\
    ((0 < wd)%nat -> Forall (fun x => fits_s wd (cd_rate x)) cells).
Proof.
  intros H.
  assert (S : forall w l, zlen l = Z.of_nat w * Z.of_nat n ->
    exists vs, length vs = n /\ l = flat_map (enc w) vs /\ ((0 < w)%nat -> Forall (fits_s w) vs)).
  { intros w l Hl. destruct w as [|w].
    - destruct (as_column_u 0 n l Hl) as (vs & A & B & _). exists vs. repeat split; try assumption. lia.
    - destruct (as_column_s (S w) n ltac:(lia) l Hl) as (vs & A & B & C). exists vs. tauto. }
  destruct (split_bits bits (Z.of_nat wr * Z.of_nat n)) as (a1 & b1 & E1 & La1 & Lb1); [nia|].
  destruct (split_bits b1 (Z.of_nat wp * Z.of_nat n)) as (a2 & b2 & E2 & La2 & Lb2); [nia|].
  destruct (split_bits b2 (Z.of_nat wl * Z.of_nat n)) as (a3 & b3 & E3 & La3 & Lb3); [nia|].
  destruct (split_bits b3 (Z.of_nat wh * Z.of_nat n)) as (a4 & b4 & E4 & La4 & Lb4); [nia|].
  destruct (split_bits b4 (Z.of_nat wc * Z.of_nat n)) as (a5 & b5 & E5 & La5 & Lb5); [nia|].
  destruct (S wr a1) as (v1 & L1 & X1 & F1); [lia|].
  destruct (S wp a2) as (v2 & L2 & X2 & F2); [lia|].
  destruct (as_column_u wl n a3) as (v3 & L3 & X3 & F3); [lia|].
  destruct (as_column_u wh n a4) as (v4 & L4 & X4 & F4); [lia|].
  destruct (as_column_u wc n a5) as (v5 & L5 & X5 & F5); [lia|].
  destruct (S wd b5) as (v6 & L6 & X6 & F6); [nia|].
  set (cells := cells_of n v1 v2 v3 v4 v5 v6). exists cells.
  assert (M1 : map cd_rng cells = v1)
    by (unfold cells, cells_of; rewrite map_map; rewrite <- L1; apply map_nth_seq).
  assert (M2 : map cd_phs cells = v2)
    by (unfold cells, cells_of; rewrite map_map; rewrite <- L2; apply map_nth_seq).
  assert (M3 : map cd_lock cells = v3)
    by (unfold cells, cells_of; rewrite map_map; rewrite <- L3; apply map_nth_seq).
  assert (M4 : map cd_half cells = v4)
    by (unfold cells, cells_of; rewrite map_map; rewrite <- L4; apply map_nth_seq).
  assert (M5 : map cd_cnr cells = v5)
    by (unfold cells, cells_of; rewrite map_map; rewrite <- L5; apply map_nth_seq).
  assert (M6 : map cd_rate cells = v6)
    by (unfold cells, cells_of; rewrite map_map; rewrite <- L6; apply map_nth_seq).
  split; [unfold cells, cells_of; now rewrite map_length, seq_length|].
  rewrite (col_bits_map _ _ _ _ M1), (col_bits_map _ _ _ _ M2), (col_bits_map _ _ _ _ M3),
      (col_bits_map _ _ _ _ M4), (col_bits_map _ _ _ _ M5), (col_bits_map _ _ _ _ M6).
  split; [now rewrite E1, E2, E3, E4, E5, X1, X2, X3, X4, X5, X6|].
  split; [intros W; exact (Forall_get _ _ _ _ M1 (F1 W))|].
  split; [intros W; exact (Forall_get _ _ _ _ M2 (F2 W))|].
  split; [exact (Forall_get _ _ _ _ M3 F3)|].
  split; [exact (Forall_get _ _ _ _ M4 F4)|].
  split; [exact (Forall_get _ _ _ _ M5 F5)|].
  intros W; exact (Forall_get _ _ _ _ M6 (F6 W)).
Qed.

Lemma enc0 {A} (get : A -> Z) l : flat_map (fun x => enc 0 (get x)) l = [].
Proof. induction l; [reflexivity|]. exact IHl. Qed.

Lemma cell_parse t n bits :
  zlen bits = width_of (cell_columns t) * Z.of_nat n ->
  exists cells, length cells = n /\ flat_map (column_bits cells) (cell_columns t) = bits /\
    (forall c, In c (cell_columns t) -> Forall (fits c) cells).
Proof.
  intros H. destruct t; cbn [cell_columns width_of fold_right fst] in H.
  1: destruct (cell_parse6 15 0 0 0 0 0 n bits) as (cells & L & E & F1 & F2 & F3 & F4 & F5 & F6); [lia|].
  2: destruct (cell_parse6 0 22 4 1 0 0 n bits) as (cells & L & E & F1 & F2 & F3 & F4 & F5 & F6); [lia|].
  3: destruct (cell_parse6 15 22 4 1 0 0 n bits) as (cells & L & E & F1 & F2 & F3 & F4 & F5 & F6); [lia|].
  4: destruct (cell_parse6 15 22 4 1 6 0 n bits) as (cells & L & E & F1 & F2 & F3 & F4 & F5 & F6); [lia|].
  5: destruct (cell_parse6 15 22 4 1 6 15 n bits) as (cells & L & E & F1 & F2 & F3 & F4 & F5 & F6); [lia|].
  6: destruct (cell_parse6 20 24 10 1 10 0 n bits) as (cells & L & E & F1 & F2 & F3 & F4 & F5 & F6); [lia|].
  7: destruct (cell_parse6 20 24 10 1 10 15 n bits) as (cells & L & E & F1 & F2 & F3 & F4 & F5 & F6); [lia|].
  all: exists cells; split; [exact L|]; split;
    [rewrite E; cbn [cell_columns flat_map column_bits]; rewrite ?enc0, ?app_nil_r; reflexivity|].
  all: cbn [cell_columns In]; intros c Hc.
  all: repeat (destruct Hc as [<-|Hc];
    [cbn [fits]; first [exact F3|exact F4|exact F5|apply F1; lia|apply F2; lia|apply F6; lia]|]);
    destruct Hc.
Qed.

(** ** A message from its bits *)
Lemma parse_msm g t hb sm gm cm sc cc :
  zlen hb = 61 -> zlen sm = 64 -> zlen gm = 32 -> zlen cm = count_true sm * count_true gm ->
  zlen cm <= 64 ->
  zlen sc = width_of (sat_columns t) * count_true sm ->
  zlen cc = width_of (cell_columns t) * count_true cm ->
  exists m, msm_ok m /\ m_gnss m = g /\ m_type m = t /\ zlen (m_cells m) = count_true cm /\
    msm_bits m = enc 12 (msm_number g t) ++ hb ++ sm ++ gm ++ cm ++ sc ++ cc.
Proof.
  intros Hh Hs Hg Hc Hc64 Hsc Hcc.
  destruct (set_numbers_ok sm 64 Hs) as (Is & Ms & Ns).
  destruct (set_numbers_ok gm 32 Hg) as (Ig & Mg & Ng).
  destruct (sat_parse t (set_numbers sm) sc) as (sats & S1 & S2 & S3); [now rewrite Ns|].
  pose proof (count_true_nonneg cm) as C0.
  destruct (cell_parse t (Z.to_nat (count_true cm)) cc) as (cells & K1 & K2 & K3);
    [rewrite Z2Nat.id by lia; exact Hcc|].
  destruct (rows_parse sats (length (set_numbers gm)) cm cells) as (rows & R1 & R2 & R3 & R4).
  { assert (LS : length sats = length (set_numbers sm)) by (rewrite <- S1; now rewrite map_length).
    rewrite LS. unfold zlen in *. nia. }
  { unfold zlen. lia. }
  assert (HB : exists v1 v2 v3 v4 v5 v6 v7 v8 v9,
    hb = enc 12 v1 ++ enc 30 v2 ++ enc 1 v3 ++ enc 3 v4 ++ enc 7 v5 ++ enc 2 v6 ++ enc 2 v7 ++
         enc 1 v8 ++ enc 3 v9 /\
    fits_u 12 v1 /\ fits_u 30 v2 /\ fits_u 1 v3 /\ fits_u 3 v4 /\ fits_u 7 v5 /\ fits_u 2 v6 /\
    fits_u 2 v7 /\ fits_u 1 v8 /\ fits_u 3 v9).
  { destruct (split_bits hb 12) as (a1 & b1 & -> & A1 & B1); [lia|].
    destruct (split_bits b1 30) as (a2 & b2 & -> & A2 & B2); [lia|].
    destruct (split_bits b2 1) as (a3 & b3 & -> & A3 & B3); [lia|].
    destruct (split_bits b3 3) as (a4 & b4 & -> & A4 & B4); [lia|].
    destruct (split_bits b4 7) as (a5 & b5 & -> & A5 & B5); [lia|].
    destruct (split_bits b5 2) as (a6 & b6 & -> & A6 & B6); [lia|].
    destruct (split_bits b6 2) as (a7 & b7 & -> & A7 & B7); [lia|].
    destruct (split_bits b7 1) as (a8 & b8 & -> & A8 & B8); [lia|].
    exists (uval a1), (uval a2), (uval a3), (uval a4), (uval a5), (uval a6), (uval a7),
      (uval a8), (uval b8).
    destruct (enc_uval_w 12 a1) as [-> F1]; [unfold zlen in *; lia|].
    destruct (enc_uval_w 30 a2) as [-> F2]; [unfold zlen in *; lia|].
    destruct (enc_uval_w 1 a3) as [-> F3]; [unfold zlen in *; lia|].
    destruct (enc_uval_w 3 a4) as [-> F4]; [unfold zlen in *; lia|].
    destruct (enc_uval_w 7 a5) as [-> F5]; [unfold zlen in *; lia|].
    destruct (enc_uval_w 2 a6) as [-> F6]; [unfold zlen in *; lia|].
    destruct (enc_uval_w 2 a7) as [-> F7]; [unfold zlen in *; lia|].
    destruct (enc_uval_w 1 a8) as [-> F8]; [unfold zlen in *; lia|].
    destruct (enc_uval_w 3 b8) as [-> F9]; [unfold zlen in *; lia|].
    tauto. }
  destruct HB as (v1 & v2 & v3 & v4 & v5 & v6 & v7 & v8 & v9 & -> & F1 & F2 & F3 & F4 & F5 & F6 & F7 & F8 & F9).
  exists {| m_gnss := g; m_type := t; m_station := v1; m_epoch := v2; m_multiple := v3;
            m_iods := v4; m_reserved := v5; m_steering := v6; m_ext_clock := v7; m_smooth := v8;
            m_smooth_int := v9; m_sigs := set_numbers gm; m_rows := rows |}.
  unfold msm_ok, header_ok, msm_bits, header_bits, cell_bits, m_sats, m_cells.
  cbn [m_gnss m_type m_station m_epoch m_multiple m_iods m_reserved m_steering m_ext_clock
       m_smooth m_smooth_int m_sigs m_rows].
  rewrite R1, R3, R4, S1, S2, K2, Ms, Mg.
  assert (LR : zlen rows = count_true sm)
    by (rewrite <- Ns, <- S1, <- R1, !zlen_map; reflexivity).
  split; [|split; [reflexivity|split; [reflexivity|split; [unfold zlen; lia|]]]].
  - split; [tauto|]. split; [exact Is|]. split; [exact Ig|]. split; [exact R2|].
    split; [rewrite LR, Ng; lia|]. tauto.
  - rewrite <- !app_assoc. reflexivity.
Qed.

Lemma subset_number num : fits_u 12 num ->
  msm_subset num = (EmptyString, EmptyString) \/ exists g t, num = msm_number g t.
Proof.
  intros H.
  assert (A : forallb (fun n => (let '(a, b) := msm_subset n in String.eqb a EmptyString && String.eqb b EmptyString)
      || existsb (Z.eqb n) (flat_map (fun g => map (msm_number g) [MSM1; MSM2; MSM3; MSM4; MSM5; MSM6; MSM7])
           [GPS; GLO; GAL; SBAS; QZSS; BDS; NAVIC])) (zrange 0 4096) = true)
    by (vm_compute; reflexivity).
  rewrite forallb_forall in A. specialize (A num).
  assert (I : In num (zrange 0 4096)) by (apply zrange_In; unfold fits_u in H; change (2 ^ Z.of_nat 12) with 4096 in H; lia).
  specialize (A I). apply orb_true_iff in A. destruct A as [A|A].
  - left. destruct (msm_subset num) as [a b]. apply andb_true_iff in A. destruct A as [A B].
    apply String.eqb_eq in A, B. now subst.
  - right. apply existsb_exists in A. destruct A as (x & Hx & E). apply Z.eqb_eq in E. subst x.
    apply in_flat_map in Hx. destruct Hx as (g & _ & Hx). apply in_map_iff in Hx.
    destruct Hx as (t & E & _). now exists g, t.
Qed.

(** ** Inversion of the decoder *)
Local Opaque getbitu getbits revbitu column_u column_s bit_count.
Ltac inv_bind H :=
  repeat match type of H with
  | bind ?x _ = Ok _ =>
      let v := fresh "v" in let E := fresh "E" in
      destruct x as [v|] eqn:E; cbn [bind] in H; [|discriminate H]
  | (let '(_, _) := ?p in _) = Ok _ => destruct p
  | (if ?c then _ else _) = Ok _ =>
      let E := fresh "E" in destruct c eqn:E; [try discriminate H|try discriminate H]
  | Ok _ = Ok _ => inversion H; subst; clear H
  | Err _ = Ok _ => discriminate H
  end.

Lemma getbitu_inside buf off len v :
  bytes_ok buf -> getbitu buf off len = Ok v -> field_inside buf off len.
Proof.
  intros B E. destruct (getbitu_spec buf off len B) as [[Hi _]|[_ E']]; [exact Hi|congruence].
Qed.

Lemma extract_hdr_inv buf h off rest :
  at_bits buf 24 rest -> extract_hdr buf 24 = Ok (h, off) ->
  exists L, getbitu buf 14 10 = Ok L /\ 169 <= (L - 3) * 8 /\
  ((h_sat_mask h = 0 /\ zlen buf = 28) \/
   (exists nb hb sm gm cm rest', rest = nb ++ hb ++ sm ++ gm ++ cm ++ rest' /\
     zlen nb = 12 /\ zlen hb = 61 /\ zlen sm = 64 /\ zlen gm = 32 /\
     zlen cm = count_true sm * count_true gm /\ 1 <= zlen cm <= 64 /\ h_sat_mask h <> 0 /\
     h_sat_mask h = lsb_value sm /\ h_sgn_mask h = lsb_value gm /\ h_cell_mask h = lsb_value cm /\
     off = 193 + zlen cm /\ at_bits buf off rest')).
Proof.
  intros A H. unfold extract_hdr in H. cbv zeta in H. unfold MIN_HDR_LEN in H.
  destruct (getbitu buf 14 10) as [L|] eqn:EL; cbn [bind] in H; [|discriminate].
  exists L. split; [reflexivity|].
  destruct ((L - 3) * 8 <? 169) eqn:EB; [discriminate|]. split; [lia|].
  do 9 (let E := fresh in apply bind_ok in H; destruct H as (? & E & H); clear E).
  apply bind_ok in H; destruct H as (sat_raw & ES & H).
  apply bind_ok in H; destruct H as (sat_rev & RS & H).
  apply bind_ok in H; destruct H as (sgn_raw & EG & H).
  apply bind_ok in H; destruct H as (sgn_rev & RG & H).
  pose proof A as (_ & B & _ & _).
  assert (E97 : 24 + 12 + 12 + 30 + 1 + (3 + 7) + 2 + 2 + 1 + 3 = 97) by reflexivity.
  assert (E193 : 97 + 64 + 32 = 193) by reflexivity. assert (E161 : 97 + 64 = 161) by reflexivity.
  rewrite E97 in H, ES, EG. rewrite E193 in H. rewrite E161 in EG. clear E97 E193 E161.
  pose proof (getbitu_inside _ _ _ _ B EG) as (_ & _ & I).
  destruct (at_split _ _ 12 _ A ltac:(lia) ltac:(lia)) as (nb & r1 & -> & N1 & A1).
  destruct (at_split _ _ 61 _ A1 ltac:(lia) ltac:(lia)) as (hb & r2 & -> & N2 & A2).
  destruct (at_split _ _ 64 _ A2 ltac:(lia) ltac:(lia)) as (sm & r3 & -> & N3 & A3).
  destruct (at_split _ _ 32 _ A3 ltac:(lia) ltac:(lia)) as (gm & r4 & -> & N4 & A4).
  destruct (at_list_u buf _ 97 64 _ _ A2 eq_refl) as [X _]; [now rewrite N3|lia|].
  rewrite X in ES. inversion ES; subst sat_raw; clear ES X.
  destruct (at_list_u buf _ 161 32 _ _ A3 eq_refl) as [X _]; [now rewrite N4|lia|].
  rewrite X in EG. inversion EG; subst sgn_raw; clear EG X.
  pose proof (revbitu_lsb sm ltac:(lia)) as Y. rewrite N3, RS in Y. inversion Y; subst sat_rev; clear Y RS.
  pose proof (revbitu_lsb gm ltac:(lia)) as Y. rewrite N4, RG in Y. inversion Y; subst sgn_rev; clear Y RG.
  rewrite !bit_count_lsb in H.
  destruct (count_true sm =? 0) eqn:E0.
  - destruct (negb _) eqn:E1; [discriminate|]. inversion H; subst; clear H. left. cbn [h_sat_mask].
    split; [apply lsb_value_zero; lia|]. change (Z.shiftr (193 + 7) 3) with 25 in E1. lia.
  - destruct (64 <? _) eqn:E1; [discriminate|].
    destruct ((L - 3) * 8 - 169 <? _) eqn:E2; [discriminate|].
    apply bind_ok in H; destruct H as (c_raw & EC & H).
    apply bind_ok in H; destruct H as (c_rev & RC & H).
    inversion H; subst; clear H. right.
    pose proof (getbitu_inside _ _ _ _ B EC) as (I1 & _ & I2).
    destruct (at_split _ _ (count_true sm * count_true gm) _ A4 ltac:(lia) ltac:(lia)) as (cm & r5 & -> & N5 & A5).
    destruct (at_list_u buf _ 193 (count_true sm * count_true gm) _ _ A4 eq_refl) as [X _];
      [now rewrite N5|lia|].
    rewrite X in EC. inversion EC; subst c_raw; clear EC X.
    pose proof (revbitu_lsb cm ltac:(lia)) as Y. rewrite N5, RC in Y. inversion Y; subst c_rev; clear Y RC.
    exists nb, hb, sm, gm, cm, r5. cbn [h_sat_mask h_sgn_mask h_cell_mask].
    rewrite N5. rewrite lsb_value_zero. repeat (split; [first [reflexivity|assumption|lia]|]). exact A5.
Qed.

Lemma extract4567_inv buf a h off x t :
  extract_observables4567 buf a h off = Ok x ->
  a_subset a = type_name t -> In t [MSM4; MSM5; MSM6; MSM7] ->
  bit_count (h_cell_mask h) <> 0 /\
  zlen buf = (off + width_of (sat_columns t) * bit_count (h_sat_mask h)
                  + width_of (cell_columns t) * bit_count (h_cell_mask h) + 7) / 8 + 3.
Proof.
  intros H T I. unfold extract_observables4567, is_msm7, is_msm6, is_msm5 in H. cbv zeta in H.
  rewrite T in H.
  destruct (_ || _ || _) eqn:N0 in H; [discriminate|]. split; [lia|].
  cbn [In] in I. destruct I as [<-|[<-|[<-|[<-|[]]]]]; cbn [type_name] in H;
  repeat (match type of H with context [String.eqb ?a ?b] =>
         let v := eval vm_compute in (String.eqb a b) in change (String.eqb a b) with v in H end);
  cbn [orb] in H;
  cbn [sat_columns cell_columns width_of fold_right fst];
  (match type of H with (if negb (?e =? _) then _ else _) = _ => destruct (negb (e =? zlen buf)) eqn:E in H end;
   [discriminate|]; clear H;
   rewrite Z.shiftr_div_pow2 in E by lia; change (2 ^ 3) with 8 in E; lia).
Qed.

Lemma extract123_inv buf a h off x t :
  extract_observables123 buf a h off = Ok x ->
  a_subset a = type_name t -> In t [MSM1; MSM2; MSM3] ->
  bit_count (h_cell_mask h) <> 0 /\
  zlen buf = (off + width_of (sat_columns t) * bit_count (h_sat_mask h)
                  + width_of (cell_columns t) * bit_count (h_cell_mask h) + 7) / 8 + 3.
Proof.
  intros H T I. unfold extract_observables123, is_msm1, is_msm2, is_msm3 in H. cbv zeta in H.
  rewrite T in H.
  destruct (_ || _ || _) eqn:N0 in H; [discriminate|]. split; [lia|].
  cbn [In] in I. destruct I as [<-|[<-|[<-|[]]]]; cbn [type_name] in H;
  repeat (match type of H with context [String.eqb ?a ?b] =>
         let v := eval vm_compute in (String.eqb a b) in change (String.eqb a b) with v in H end);
  cbn [orb] in H;
  cbn [sat_columns cell_columns width_of fold_right fst];
  (match type of H with (if negb (?e =? _) then _ else _) = _ => destruct (negb (e =? zlen buf)) in H end;
   [discriminate|]); cbn [BIT_WIDTH_1 BIT_WIDTH_2 BIT_WIDTH_3 next_bw bind] in H;
  repeat (match type of H with context [bind (column_u ?b ?o ?w ?n) _] =>
            destruct (column_u b o w n); cbn [next_bw bind] in H; [|discriminate H]
          | context [bind (column_s ?b ?o ?w ?n) _] =>
            destruct (column_s b o w n); cbn [next_bw bind] in H; [|discriminate H] end).
  all: match type of H with (if negb (zlen ?b =? ?e) then _ else _) = _ =>
         destruct (negb (zlen b =? e)) eqn:E in H end; [discriminate|]; clear H;
       rewrite Z.shiftr_div_pow2 in E by lia; change (2 ^ 3) with 8 in E; lia.
Qed.

Lemma bare_decode_inv buf payload crc b :
  transport_frame buf payload crc -> bare_decode buf = Ok b ->
  exists m, msm_ok m /\ msm_nonempty m /\ carries buf (msm_bits m).
Proof.
  intros TF H. destruct (frame_at _ _ _ TF) as (A & EL & ZL & B).
  pose proof TF as (_ & LP & LC & BP & BC).
  unfold bare_decode in H. destruct (get_msg_num buf) as [num|] eqn:EN; cbn [bind] in H; [|discriminate].
  destruct num as [num|]; [|discriminate].
  unfold get_msg_num in EN. destruct (getbitu buf 24 12) as [num'|e] eqn:E12; cbn [catch_bits] in EN;
    [|destruct (is_exception e); discriminate].
  inversion EN; subst num'; clear EN.
  destruct (getbitu_inv _ _ _ _ _ A E12) as (r & Er & FN & _ & _).
  change (Z.to_nat 12) with 12%nat in *.
  destruct (subset_number num FN) as [X|(g & t & ->)]; [rewrite X in H; discriminate H|].
  rewrite msm_subset_ok in H.
  assert (S : exists h off, extract_hdr buf 24 = Ok (h, off) /\
    (h_sat_mask h <> 0 -> bit_count (h_cell_mask h) <> 0 /\
       zlen buf = (off + width_of (sat_columns t) * bit_count (h_sat_mask h)
                  + width_of (cell_columns t) * bit_count (h_cell_mask h) + 7) / 8 + 3)).
  { assert (T : In t [MSM1; MSM2; MSM3] \/ In t [MSM4; MSM5; MSM6; MSM7])
      by (destruct t; cbn; tauto).
    set (a := {| a_gnss := gnss_letter g; a_subset := type_name t; a_msg_number := msm_number g t |}) in *.
    destruct T as [T|T].
    - replace (is_msm1 a || is_msm2 a || is_msm3 a) with true in H
        by (unfold is_msm1, is_msm2, is_msm3, a; cbn [a_subset];
            cbn [In] in T; destruct T as [<-|[<-|[<-|[]]]]; reflexivity).
      destruct (extract_hdr buf 24) as [[h off]|] eqn:EH; cbn [bind] in H; [|discriminate].
      exists h, off. split; [reflexivity|]. intros HS.
      replace (h_sat_mask h =? 0) with false in H by lia.
      destruct (extract_observables123 buf a h off) as [[s0 g0]|] eqn:EX; cbn [bind] in H; [|discriminate].
      exact (extract123_inv _ _ _ _ _ t EX eq_refl T).
    - replace (is_msm1 a || is_msm2 a || is_msm3 a) with false in H
        by (unfold is_msm1, is_msm2, is_msm3, a; cbn [a_subset];
            cbn [In] in T; destruct T as [<-|[<-|[<-|[<-|[]]]]]; reflexivity).
      replace (is_msm4 a || is_msm5 a || is_msm6 a || is_msm7 a) with true in H
        by (unfold is_msm4, is_msm5, is_msm6, is_msm7, a; cbn [a_subset];
            cbn [In] in T; destruct T as [<-|[<-|[<-|[<-|[]]]]]; reflexivity).
      destruct (extract_hdr buf 24) as [[h off]|] eqn:EH; cbn [bind] in H; [|discriminate].
      exists h, off. split; [reflexivity|]. intros HS.
      replace (h_sat_mask h =? 0) with false in H by lia.
      destruct (extract_observables4567 buf a h off) as [[s0 g0]|] eqn:EX; cbn [bind] in H; [|discriminate].
      exact (extract4567_inv _ _ _ _ _ t EX eq_refl T). }
  destruct S as (h & off & EH & HS). clear H.
  destruct (extract_hdr_inv _ _ _ _ A EH) as (L & EL' & HL & D).
  rewrite EL in EL'. inversion EL'; subst L; clear EL'.
  destruct D as [[_ Z28]|(nb & hb & sm & gm & cm & rest' & Eb & N1 & N2 & N3 & N4 & N5 & N6 & NZ & M1 & M2 & M3 & Eo & A')];
    [lia|].
  destruct (HS NZ) as [NC ZB]. clear HS. rewrite M1, M3, !bit_count_lsb in *. subst off.
  assert (Enb : nb = enc 12 (msm_number g t)).
  { destruct (at_list_u buf 24 24 12 nb (hb ++ sm ++ gm ++ cm ++ rest')) as [X _];
      [now rewrite <- Eb|reflexivity|now rewrite N1|lia|].
    rewrite E12 in X. inversion X as [X'].
    assert (Ln : length nb = 12%nat) by (unfold zlen in N1; lia).
    rewrite X'. symmetry. apply enc_uval_w. exact Ln. }
  pose proof (count_true_nonneg sm) as S0. pose proof (count_true_nonneg cm) as C0.
  set (sw := width_of (sat_columns t)) in *. set (cw := width_of (cell_columns t)) in *.
  assert (SW : 0 <= sw) by (unfold sw; destruct t; cbn; lia).
  assert (CW : 0 <= cw) by (unfold cw; destruct t; cbn; lia).
  (* cut the payload *)
  assert (LB : zlen (bits_of payload) = 8 * zlen payload) by apply zlen_bits_of.
  assert (P1 : 0 <= sw * count_true sm) by nia. assert (P2 : 0 <= cw * count_true cm) by nia.
  assert (LT : 169 + zlen cm + sw * count_true sm + cw * count_true cm <= 8 * zlen payload
               < 169 + zlen cm + sw * count_true sm + cw * count_true cm + 8) by lia.
  destruct (split_bits (bits_of payload) (169 + zlen cm)) as (pre & post & Ep & Lpre & Lpost); [lia|].
  destruct (split_bits post (sw * count_true sm)) as (sc & post2 & Ep2 & Lsc & Lpost2); [lia|].
  destruct (split_bits post2 (cw * count_true cm)) as (cc & pad & Ep3 & Lcc & Lpad); [lia|].
  assert (Epre : pre = nb ++ hb ++ sm ++ gm ++ cm).
  { rewrite Ep in Eb. rewrite !app_assoc in Eb. rewrite <- (app_assoc pre) in Eb.
    assert (LL : length pre = length ((((nb ++ hb) ++ sm) ++ gm) ++ cm)).
    { apply Nat2Z.inj. change (zlen pre = zlen ((((nb ++ hb) ++ sm) ++ gm) ++ cm)).
      rewrite !zlen_app, Lpre. lia. }
    assert (FF : firstn (length pre) (pre ++ post ++ bits_of crc) =
                 firstn (length pre) (((((nb ++ hb) ++ sm) ++ gm) ++ cm) ++ rest')) by now rewrite Eb.
    rewrite firstn_app, Nat.sub_diag, firstn_all, app_nil_r in FF.
    rewrite LL, firstn_app, Nat.sub_diag, firstn_all, app_nil_r in FF.
    rewrite FF. now rewrite <- !app_assoc. }
  destruct (parse_msm g t hb sm gm cm sc cc N2 N3 N4 N5 ltac:(lia) Lsc Lcc)
    as (m & OK & _ & _ & NCm & EM).
  exists m. split; [exact OK|]. split.
  - unfold msm_nonempty. intros X. rewrite X in NCm. cbn in NCm. lia.
  - exists payload, crc, pad. split; [exact TF|]. split; [|lia].
    rewrite EM, Ep, Ep2, Ep3, Epre, Enb. rewrite <- !app_assoc. reflexivity.
Qed.

(** The two directions together. *)
Lemma bare_decode_iff buf payload crc b :
  transport_frame buf payload crc ->
  (bare_decode buf = Ok b <->
   exists m, msm_ok m /\ msm_nonempty m /\ passes_length_check m /\ carries buf (msm_bits m) /\
             b = bare_of m).
Proof.
  intros TF. split.
  - intros H. destruct (bare_decode_inv _ _ _ _ TF H) as (m & OK & NE & C).
    destruct (bare_decode_ok buf m OK NE C) as [Y N].
    destruct (passes_dec m) as [P|P].
    + exists m. rewrite (Y P) in H. inversion H. tauto.
    + rewrite (N P) in H. discriminate.
  - intros (m & OK & NE & P & C & ->). now apply bare_decode_ok.
Qed.
