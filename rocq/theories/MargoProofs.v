(** * MargoProofs: the MARGO printer meets MargoSpec. *)
From Coq Require Import Ascii Reals Psatz.
From Flocq Require Import BinarySingleNaN.
From Verif Require Import PyBase PyDict PyFloat BitsProofs TablesModel MsmModel MsmSpec MsmScaleSpec MsmConvert
  MsmScaleTheorems FloatProofs PyFormat FormatSpec FormatProofs MargoModel MargoSpec.
Local Open Scope string_scope.
Local Open Scope list_scope.
Local Open Scope Z_scope.

(** ** Time *)
Lemma row_time_ok ctl g o :
  (if negb (String.eqb (gnss_letter g) "G")
   then conv_to_gps_time (d_time (ob_hdr o)) (d_day (ob_hdr o)) (gps_utc_shift ctl) (gnss_letter g)
   else d_time (ob_hdr o)) = row_time ctl g o.
Proof.
  unfold conv_to_gps_time, row_time, week_ms.
  destruct g; cbn [gnss_letter String.eqb Ascii.eqb Bool.eqb negb]; cbv zeta; try reflexivity.
  replace (d_time (ob_hdr o) + d_day (ob_hdr o) * 86400000 - (10800 - gps_utc_shift ctl) * 1000)
    with (d_day (ob_hdr o) * 86400000 + d_time (ob_hdr o) - 10800000 + gps_utc_shift ctl * 1000) by lia.
  reflexivity.
Qed.

(** ** Names *)
Lemma letter_char g : exists a, gnss_letter g = String a "".
Proof. destruct g; eexists; reflexivity. Qed.
Lemma param_char p : exists a, param_letter p = String a "".
Proof. destruct p; eexists; reflexivity. Qed.
Lemma letter_inj g g' : gnss_letter g = gnss_letter g' -> g = g'.
Proof. destruct g, g'; intros H; try reflexivity; discriminate H. Qed.
Lemma param_inj p p' : param_letter p = param_letter p' -> p = p'.
Proof. destruct p, p'; intros H; try reflexivity; discriminate H. Qed.
Lemma type_inj t t' : (type_name t ++ ".obs" = type_name t' ++ ".obs")%string -> t = t'.
Proof. destruct t, t'; intros H; try reflexivity; discriminate H. Qed.

Lemma two_chars s : slen s = 2 -> exists a b, s = String a (String b "").
Proof.
  unfold slen. destruct s as [|a [|b [|c s]]]; cbn [String.length]; intros H; try lia. eauto.
Qed.

Lemma obs_file_inj g p s t g' p' s' t' : slen s = 2 -> slen s' = 2 ->
  obs_file g p s t = obs_file g' p' s' t' -> g = g' /\ p = p' /\ s = s' /\ t = t'.
Proof.
  intros L L' H. unfold obs_file in H.
  destruct (letter_char g) as (a & A), (letter_char g') as (a' & A'), (param_char p) as (b & B),
    (param_char p') as (b' & B'), (two_chars s L) as (c & d & C), (two_chars s' L') as (c' & d' & C').
  rewrite A, A', B, B' in H. subst s s'. cbn [String.append] in H. injection H as -> -> -> -> H.
  split; [apply letter_inj; congruence|]. split; [apply param_inj; congruence|]. split; [reflexivity|].
  apply type_inj. exact H.
Qed.

Lemma append_cancel a x y : (a ++ x = a ++ y)%string -> x = y.
Proof. induction a as [|c a IH]; cbn; intros H; [exact H|]. apply IH. now injection H. Qed.

Lemma obs_path_inj g p s t g' p' s' t' : slen s = 2 -> slen s' = 2 ->
  obs_path g p s t = obs_path g' p' s' t' -> g = g' /\ p = p' /\ s = s' /\ t = t'.
Proof.
  intros L L' H. assert (E : g = g').
  { unfold obs_path in H. destruct g, g'; try reflexivity; cbn in H; discriminate H. }
  subst g'. apply obs_file_inj; [assumption|assumption|]. unfold obs_path in H.
  apply append_cancel in H. change ("/" ++ obs_file g p s t)%string with (String "/" (obs_file g p s t)) in H.
  change ("/" ++ obs_file g p' s' t')%string with (String "/" (obs_file g p' s' t')) in H.
  now apply (f_equal (fun x => match x with String _ r => r | EmptyString => "" end)) in H.
Qed.

Lemma code_length g s : In s (map snd (signal_codes g)) -> slen s = 2.
Proof.
  intros H. apply in_map_iff in H. destruct H as ([k c] & <- & H).
  assert (F : forallb (fun p => slen (snd p) =? 2) (signal_codes g) = true) by (destruct g; vm_compute; reflexivity).
  rewrite forallb_forall in F. apply F in H. now apply Z.eqb_eq.
Qed.

Lemma file_name_ok g p s t : slen s = 2 ->
  make_obs_file_name (gnss_letter g) (param_letter p) s (type_name t) = obs_file g p s t.
Proof.
  intros L. unfold make_obs_file_name. rewrite L.
  replace (gnss_supported (gnss_letter g)) with true by (destruct g; reflexivity).
  replace (slen (param_letter p)) with 1 by (destruct p; reflexivity).
  replace (slen (type_name t)) with 4 by (destruct t; reflexivity). reflexivity.
Qed.

Lemma obs_file_nonempty g p s t : obs_file g p s t <> "".
Proof. unfold obs_file. destruct g; cbn; discriminate. Qed.

(** The three substrings of a name. *)
Lemma substring_0_0 s : substring 0 0 s = "".
Proof. destruct s; reflexivity. Qed.
Lemma name_gnss g p s t : substring 0 1 (obs_file g p s t) = gnss_letter g.
Proof. unfold obs_file. destruct (letter_char g) as (a & ->). cbn [String.append substring]. now rewrite substring_0_0. Qed.
Lemma name_param g p s t : substring 1 1 (obs_file g p s t) = param_letter p.
Proof. unfold obs_file. destruct (letter_char g) as (a & ->). destruct p; cbn [String.append substring param_letter]; rewrite substring_0_0; reflexivity. Qed.
Lemma name_sgn g p s t : slen s = 2 -> substring 2 2 (obs_file g p s t) = s.
Proof.
  intros L. unfold obs_file. destruct (letter_char g) as (a & ->), (param_char p) as (b & ->), (two_chars s L) as (c & d & ->).
  reflexivity.
Qed.
Lemma path_ok g p s t : margo_path (obs_file g p s t) = Ok (obs_path g p s t).
Proof. unfold margo_path. rewrite name_gnss. destruct g; reflexivity. Qed.

(** ** Small list facts *)
Lemma seq_zrange n : map Z.of_nat (seq 1 (Z.to_nat n)) = zrange 1 (n + 1).
Proof.
  unfold zrange. replace (n + 1 - 1) with n by lia. generalize (Z.to_nat n) as k. intros k.
  change 1 with (Z.of_nat 1) at 1. generalize 1%nat as a. induction k as [|k IH]; intros a; [reflexivity|].
  cbn [seq map zrange_n]. f_equal. rewrite IH. f_equal. lia.
Qed.

Lemma map_res_ok {A B} (f : A -> res B) (g : A -> B) l :
  (forall x, In x l -> f x = Ok (g x)) -> map_res f l = Ok (map g l).
Proof.
  induction l as [|x r IH]; intros H; [reflexivity|]. cbn [map_res map]. rewrite H by now left. cbn [bind].
  rewrite IH by (intros; apply H; now right). reflexivity.
Qed.

Lemma combine_repeat {A B} (l : list A) (b : B) n : length l = n -> combine l (repeat b n) = map (fun a => (a, b)) l.
Proof. revert n. induction l as [|a r IH]; intros [|n] H; try discriminate H; [reflexivity|]. cbn. f_equal. apply IH. now injection H. Qed.

(** ** Carriers and wave lengths *)
Lemma max_sats_ok g : MAX_SATS (gnss_letter g) = Ok (slots g).
Proof. destruct g; reflexivity. Qed.
Lemma slots_pos g : 0 < slots g.
Proof. destruct g; cbn; lia. Qed.

Lemma crr_frq_code g c : In c (map snd (signal_codes g)) -> crr_frq (gnss_letter g) (Some c) = Ok (carrier g c).
Proof.
  intros H. apply in_map_iff in H. destruct H as ([k c'] & <- & H).
  assert (F : Forall (fun p => crr_frq (gnss_letter g) (Some (snd p)) = Ok (carrier g (snd p))) (signal_codes g)).
  { destruct g; cbn [signal_codes]; repeat constructor; vm_compute; reflexivity. }
  rewrite Forall_forall in F. exact (F _ H).
Qed.

Lemma small_float k : Z.abs k < 2 ^ 53 -> py_float k = Ok (f_of_int k) /\ is_finite_SF (f_of_int k) = true.
Proof.
  intros H. assert (F : is_val (f_of_int k) (IZR k)).
  { pose proof (f_of_int_exact k H) as D. destruct D as (D1 & D2 & D3). split; [exact D1|]. split; [exact D2|].
    rewrite D3. cbn. lra. }
  destruct F as (_ & F & _). unfold py_float. destruct (f_of_int k); try discriminate F; now split.
Qed.

Lemma controls_lit ctl sat : controls_ok ctl -> 1 <= sat <= 24 ->
  zindex (glo_lit_tab ctl) sat = Ok (glo_channel ctl sat) /\ -1000 <= glo_channel ctl sat <= 1000.
Proof.
  intros C S. destruct (C sat S) as (k & E & B). unfold glo_channel, zindex, dindex. unfold zget in E.
  rewrite E. unfold zget. rewrite E. auto.
Qed.

(** All carriers are positive. *)
Definition glo_freqs (k : Z) : list flt :=
  flat_map (fun sgn => [f_add (carrier GLO sgn)
    (f_mul (match sgn with String "1" _ => dec_lit 5625 4 | _ => dec_lit 4375 4 end) (f_of_int k))]) ["1C"; "1P"; "2C"; "2P"].
Definition positive_f (x : flt) : bool := match x with S754_finite false _ _ => true | _ => false end.

Lemma sat_carrier_pos ctl g sgn sat : controls_ok ctl -> In sgn (map snd (signal_codes g)) -> 1 <= sat <= slots g ->
  positive_f (sat_carrier ctl g sgn sat) = true.
Proof.
  intros C S R. unfold sat_carrier.
  assert (G : forallb (fun c => positive_f (carrier g c)) (map snd (signal_codes g)) = true) by (destruct g; vm_compute; reflexivity).
  rewrite forallb_forall in G. specialize (G _ S).
  destruct g; try exact G. destruct (controls_lit ctl sat C ltac:(unfold slots in R; lia)) as (_ & B).
  assert (F : forallb (fun k => forallb positive_f (glo_freqs k)) (zrange (-1000) 1001) = true) by (vm_compute; reflexivity).
  rewrite forallb_forall in F. specialize (F (glo_channel ctl sat) (proj2 (zrange_In (-1000) 1001 (glo_channel ctl sat)) ltac:(lia))).
  rewrite forallb_forall in F. apply F. unfold glo_freqs. apply in_flat_map. exists sgn. split; [exact S|]. now left.
Qed.

Lemma make_crr_frq_ok ctl g sgn : controls_ok ctl -> In sgn (map snd (signal_codes g)) ->
  make_crr_frq ctl (gnss_letter g) sgn = Ok (map (sat_carrier ctl g sgn) (zrange 1 (slots g + 1))).
Proof.
  intros C S. unfold make_crr_frq. rewrite (crr_frq_code g sgn S), max_sats_ok. cbn [bind]. cbv zeta.
  assert (L : length (zrange 1 (slots g + 1)) = Z.to_nat (slots g)).
  { rewrite <- seq_zrange, map_length, seq_length. reflexivity. }
  assert (K : g <> GLO -> Ok (repeat (carrier g sgn) (Z.to_nat (slots g))) = Ok (map (sat_carrier ctl g sgn) (zrange 1 (slots g + 1)))).
  { intros N. f_equal. rewrite <- L. generalize (zrange 1 (slots g + 1)). intros l. induction l as [|a r IH]; [reflexivity|].
    cbn [length repeat map]. rewrite IH. f_equal. destruct g; try reflexivity. congruence. }
  destruct g; try (apply K; discriminate). clear K.
  cbn [gnss_letter String.eqb Ascii.eqb Bool.eqb negb].
  assert (E : existsb (String.eqb sgn) ["1C"; "1P"; "2C"; "2P"] = true).
  { apply existsb_exists. exists sgn. split; [exact S|apply String.eqb_refl]. }
  rewrite E. cbn [negb]. rewrite combine_repeat by exact L.
  rewrite (map_res_ok _ (fun p => f_add (snd p) (f_mul (if existsb (String.eqb sgn) ["1C"; "1P"] then dec_lit 5625 4 else dec_lit 4375 4) (f_of_int (glo_channel ctl (fst p)))))).
  2:{ intros [sat fc] I. apply in_map_iff in I. destruct I as (s' & X & I). inversion X; subst s' fc.
      apply zrange_In in I. change (slots GLO) with 24 in I. destruct (controls_lit ctl sat C ltac:(lia)) as (Z1 & B). rewrite Z1. cbn [bind].
      rewrite (proj1 (small_float (glo_channel ctl sat) ltac:(lia))). reflexivity. }
  f_equal. rewrite map_map. apply map_ext. intros sat. unfold sat_carrier. cbn [fst snd]. f_equal. f_equal.
  cbn [signal_codes map snd In] in S.
  destruct S as [S|[S|[S|[S|[]]]]]; subst sgn; reflexivity.
Qed.

(** Wave lengths are not zero. *)
Lemma wave_nonzero ctl g sgn sat : controls_ok ctl -> In sgn (map snd (signal_codes g)) -> 1 <= sat <= slots g ->
  positive_f (wave ctl g sgn sat) = true.
Proof.
  intros C S R. unfold wave, sat_carrier.
  assert (G : forallb (fun c => positive_f (f_div (f_mul (dec_lit 299792458 3) (dec_lit 1 3)) (carrier g c))) (map snd (signal_codes g)) = true) by (destruct g; vm_compute; reflexivity).
  rewrite forallb_forall in G. specialize (G _ S).
  destruct g; try exact G. destruct (controls_lit ctl sat C ltac:(unfold slots in R; lia)) as (_ & B).
  assert (F : forallb (fun k => forallb (fun f => positive_f (f_div (f_mul (dec_lit 299792458 3) (dec_lit 1 3)) f)) (glo_freqs k)) (zrange (-1000) 1001) = true) by (vm_compute; reflexivity).
  rewrite forallb_forall in F. specialize (F (glo_channel ctl sat) (proj2 (zrange_In (-1000) 1001 (glo_channel ctl sat)) ltac:(lia))).
  rewrite forallb_forall in F. apply F. unfold glo_freqs. apply in_flat_map. exists sgn. split; [exact S|]. now left.
Qed.

Lemma fdiv_pos x y : positive_f y = true -> py_fdiv x y = Ok (f_div x y).
Proof. destruct y as [s|s| |[] m e]; cbn; intros H; try discriminate H; reflexivity. Qed.

Lemma make_lambdas_ok ctl g sgn : controls_ok ctl -> In sgn (map snd (signal_codes g)) ->
  make_lambdas ctl (gnss_letter g) sgn = Ok (map (wave ctl g sgn) (zrange 1 (slots g + 1))).
Proof.
  intros C S. unfold make_lambdas. rewrite make_crr_frq_ok by assumption. cbn [bind].
  rewrite (map_res_ok _ (fun f => f_div (f_mul CRNG_1MS (dec_lit 1 3)) f)).
  2:{ intros f I. apply in_map_iff in I. destruct I as (sat & <- & I). apply zrange_In in I.
      apply fdiv_pos. apply sat_carrier_pos; [assumption|assumption|lia]. }
  f_equal. rewrite map_map. reflexivity.
Qed.

Lemma zrange_n_nth a n k : (k < n)%nat -> nth_error (zrange_n a n) k = Some (a + Z.of_nat k).
Proof.
  revert a k. induction n as [|n IH]; intros a [|k] H; try lia; cbn [zrange_n nth_error].
  - f_equal. lia.
  - rewrite IH by lia. f_equal. lia.
Qed.
Lemma lambda_index {A} (f : Z -> A) n sat : 1 <= sat <= n -> py_index (map f (zrange 1 (n + 1))) (sat - 1) = Ok (f sat).
Proof.
  intros H. unfold py_index. cbv zeta. assert (L : (sat - 1 <? 0) = false) by lia. rewrite L, L.
  rewrite nth_error_map. unfold zrange. rewrite zrange_n_nth by lia. cbn [option_map]. do 2 f_equal. lia.
Qed.

(** ** The print buffer *)
Lemma dget_app {K V} (eqb : K -> K -> bool) (d e : list (K * V)) k :
  dget eqb (d ++ e) k = match dget eqb d k with Some v => Some v | None => dget eqb e k end.
Proof. induction d as [|[k' v] r IH]; [reflexivity|]. cbn [app dget]. destruct (eqb k k'); [reflexivity|exact IH]. Qed.
Lemma dset_fresh {K V} (eqb : K -> K -> bool) (d : list (K * V)) k v :
  dget eqb d k = None -> dset eqb d k v = d ++ [(k, v)].
Proof.
  induction d as [|[k' v'] r IH]; intros H; [reflexivity|]. cbn [dget dset app] in *.
  destruct (eqb k k'); [discriminate H|]. now rewrite IH.
Qed.

Definition entries {V} (g : gnss) (p : param) (t : msm_type) (time : Z) (d : obs_dict V)
    (val : string -> Z -> option flt) : print_buffer :=
  map (fun '(slot, _) => (obs_file g p slot t, (time, map (val slot) (zrange 1 (slots g + 1))))) d.

Lemma entries_get {V} g p t time (d : obs_dict V) val sgn :
  (forall s, In s (map fst d) -> slen s = 2) -> slen sgn = 2 ->
  sget (entries g p t time d val) (obs_file g p sgn t) =
  match sget d sgn with Some _ => Some (time, map (val sgn) (zrange 1 (slots g + 1))) | None => None end.
Proof.
  intros H L. unfold sget, entries. induction d as [|[slot o] r IH]; [reflexivity|]. cbn [map dget].
  destruct (String.eqb_spec (obs_file g p sgn t) (obs_file g p slot t)) as [E|E].
  - apply obs_file_inj in E; [|assumption|apply H; now left]. destruct E as (_ & _ & <- & _).
    rewrite String.eqb_refl. reflexivity.
  - destruct (String.eqb_spec sgn slot) as [X|X]; [congruence|]. apply IH. intros s I. apply H. now right.
Qed.
Lemma entries_other {V} g p t time (d : obs_dict V) val q sgn :
  (forall s, In s (map fst d) -> slen s = 2) -> slen sgn = 2 -> q <> p ->
  sget (entries g p t time d val) (obs_file g q sgn t) = None.
Proof.
  intros H L N. unfold sget, entries. induction d as [|[slot o] r IH]; [reflexivity|]. cbn [map dget].
  destruct (String.eqb_spec (obs_file g q sgn t) (obs_file g p slot t)) as [E|E].
  - apply obs_file_inj in E; [|assumption|apply H; now left]. destruct E as (_ & E & _). congruence.
  - apply IH. intros s I. apply H. now right.
Qed.

Lemma param_rows_ok {V} g p t time (d : obs_dict V) cell val rv :
  dict_ok g d ->
  (forall slot o, In (slot, o) d -> exists col, cell slot o = Ok col /\
     forall sat, 1 <= sat <= slots g -> col sat = Ok (val slot sat)) ->
  (forall sgn, slen sgn = 2 -> sget rv (obs_file g p sgn t) = None) ->
  param_rows (gnss_letter g) (type_name t) (param_letter p) time (slots g) d cell rv
  = Ok (rv ++ entries g p t time d val).
Proof.
  intros (ND & HC) H F. unfold param_rows.
  assert (G : forall d0 rv0, (forall x, In x d0 -> In x d) -> NoDup (map fst d0) ->
    (forall sgn, slen sgn = 2 -> In sgn (map fst d0) -> sget rv0 (obs_file g p sgn t) = None) ->
    for_each d0 rv0 (fun rv '(slot, obs) =>
      let fn := make_obs_file_name (gnss_letter g) (param_letter p) slot (type_name t) in
      if String.eqb fn "" then Ok rv
      else column <- cell slot obs ;; values <- map_res column (zrange 1 (slots g + 1)) ;;
           Ok (sset rv fn (time, values))) = Ok (rv0 ++ entries g p t time d0 val)).
  { induction d0 as [|[slot o] r IH]; intros rv0 S ND0 F0.
    - cbn. now rewrite app_nil_r.
    - cbn [for_each]. assert (L : slen slot = 2).
      { apply (code_length g), HC. change slot with (fst (slot, o)). apply in_map, S. now left. }
      rewrite file_name_ok by exact L. cbv zeta.
      destruct (String.eqb_spec (obs_file g p slot t) "") as [X|_]; [now apply obs_file_nonempty in X|].
      destruct (H slot o (S _ (or_introl eq_refl))) as (col & -> & Hcol). cbn [bind].
      rewrite (map_res_ok col (val slot)) by (intros x I; apply zrange_In in I; apply Hcol; lia). cbn [bind].
      cbn [map fst] in ND0. inversion ND0 as [|? ? NI ND1]; subst.
      unfold sset. rewrite dset_fresh by (apply F0; [exact L|now left]).
      rewrite IH.
      + unfold entries at 2. cbn [map]. rewrite <- app_assoc. reflexivity.
      + intros x I. apply S. now right.
      + exact ND1.
      + intros sgn L' I. unfold sget. rewrite dget_app.
        pose proof (F0 sgn L' (or_intror I)) as Y. unfold sget in Y. rewrite Y. cbn [dget].
        destruct (String.eqb_spec (obs_file g p sgn t) (obs_file g p slot t)) as [E|E]; [|reflexivity].
        apply obs_file_inj in E; [|assumption|assumption]. destruct E as (_ & _ & -> & _). contradiction. }
  apply G; auto.
Qed.

Definition buffer_of (ctl : margo_controls) (g : gnss) (t : msm_type) (p : observables) : print_buffer :=
  let o := ob_obs p in let time := row_time ctl g p in
  entries g CodeRange t time (o_rng o) (cell_of ctl g o CodeRange) ++
  entries g Phase t time (o_phs o) (cell_of ctl g o Phase) ++
  entries g Doppler t time (o_dpl o) (cell_of ctl g o Doppler) ++
  entries g CNR t time (o_c2n o) (cell_of ctl g o CNR) ++
  (if lock_time_enable ctl then entries g LockTime t time (o_ltm o) (cell_of ctl g o LockTime) else []) ++
  (if half_cycle_enable ctl then entries g HalfCycle t time (o_hca o) (cell_of ctl g o HalfCycle) else []).

Lemma dict_len {V} g (d : obs_dict V) : dict_ok g d -> forall s, In s (map fst d) -> slen s = 2.
Proof. intros (_ & H) s I. exact (code_length g s (H s I)). Qed.

Lemma dict_lookup {V} g (d : obs_dict V) slot o sat : dict_ok g d -> In (slot, o) d -> sget d slot = Some o /\ lookup d slot sat = zget o sat.
Proof.
  intros (ND & _) I. assert (E : sget d slot = Some o).
  { apply In_dget; [apply String.eqb_eq|exact ND|exact I]. }
  split; [exact E|]. unfold lookup. now rewrite E.
Qed.

Lemma none_app {V} (a b : list (string * V)) k : sget a k = None -> sget b k = None -> sget (a ++ b) k = None.
Proof. unfold sget. intros A B. now rewrite dget_app, A. Qed.

Lemma to_print_buffer_ok ctl g t p : controls_ok ctl -> printable g t p ->
  to_print_buffer ctl p = Ok (buffer_of ctl g t p).
Proof.
  intros C (EG & ET & D1 & D2 & D3 & D4 & D5 & D6 & DL). unfold to_print_buffer. rewrite EG, ET.
  replace (gnss_supported (gnss_letter g)) with true by (destruct g; reflexivity). cbn [negb]. cbv zeta.
  rewrite row_time_ok.
  rewrite max_sats_ok. cbn [bind].
  change "C" with (param_letter CodeRange). change "L" with (param_letter Phase). change "D" with (param_letter Doppler).
  change "S" with (param_letter CNR). change "T" with (param_letter LockTime). change "A" with (param_letter HalfCycle).
  set (o := ob_obs p) in *.
  assert (NE : forall (q : param) V (d : obs_dict V) q' v sgn, dict_ok g d -> slen sgn = 2 -> q <> q' ->
     sget (entries g q' t (row_time ctl g p) d v) (obs_file g q sgn t) = None).
  { intros q V d q' v sgn Hd L N. apply entries_other; [apply (dict_len g d Hd)|exact L|exact N]. }
  rewrite (param_rows_ok g CodeRange t _ (o_rng o) _ (cell_of ctl g o CodeRange) []).
  2: exact D1.
  2:{ intros slot ob I. eexists; split; [reflexivity|]. intros sat _. cbn [cell_of]. now rewrite (proj2 (dict_lookup g _ slot ob sat D1 I)). }
  2: reflexivity.
  cbn [bind app].
  rewrite (param_rows_ok g Phase t _ (o_phs o) _ (cell_of ctl g o Phase)).
  2: exact D2.
  2:{ intros slot ob I. assert (IC : In slot (map snd (signal_codes g))) by (apply D2; change slot with (fst (slot, ob)); now apply in_map).
      unfold cell_phase. rewrite make_lambdas_ok by assumption. cbn [bind]. eexists; split; [reflexivity|].
      intros sat R. cbn beta. cbn [cell_of]. rewrite (proj2 (dict_lookup g _ slot ob sat D2 I)).
      destruct (zget ob sat) as [v|]; [|destruct (_ && _); reflexivity]. cbv zeta. cbn [option_map].
      rewrite lambda_index by exact R. cbn [bind].
      rewrite fdiv_pos by (apply wave_nonzero; assumption). cbn [bind]. unfold ambiguous.
      destruct (half_cycle_enable ctl); cbn [negb andb]; [reflexivity|].
      destruct (sget (o_hca o) slot) as [h|]; [|reflexivity]. destruct (zget h sat) as [[]|]; reflexivity. }
  2:{ intros sgn L. apply NE; [exact D1|exact L|discriminate]. }
  cbn [bind].
  rewrite (param_rows_ok g Doppler t _ (o_dpl o) _ (cell_of ctl g o Doppler)).
  2: exact D5.
  2:{ intros slot ob I. assert (IC : In slot (map snd (signal_codes g))) by (apply D5; change slot with (fst (slot, ob)); now apply in_map).
      unfold cell_doppler. rewrite make_lambdas_ok by assumption. cbn [bind]. eexists; split; [reflexivity|].
      intros sat R. cbn beta. cbn [cell_of]. rewrite (proj2 (dict_lookup g _ slot ob sat D5 I)).
      destruct (zget ob sat) as [v|]; [|reflexivity]. cbn [option_map].
      rewrite lambda_index by exact R. cbn [bind].
      rewrite fdiv_pos by (apply wave_nonzero; assumption). reflexivity. }
  2:{ intros sgn L. apply none_app; apply NE; solve [assumption|discriminate]. }
  cbn [bind].
  rewrite (param_rows_ok g CNR t _ (o_c2n o) _ (cell_of ctl g o CNR)).
  2: exact D6.
  2:{ intros slot ob I. eexists; split; [reflexivity|]. intros sat _. cbn [cell_of]. now rewrite (proj2 (dict_lookup g _ slot ob sat D6 I)). }
  2:{ intros sgn L. repeat apply none_app; apply NE; solve [assumption|discriminate]. }
  cbn [bind].
  set (B4 := ((entries g CodeRange t _ _ _ ++ _) ++ _) ++ _).
  assert (B4N : forall q sgn, slen sgn = 2 -> q <> CodeRange -> q <> Phase -> q <> Doppler -> q <> CNR -> sget B4 (obs_file g q sgn t) = None).
  { intros q sgn L N1 N2 N3 N4. unfold B4. repeat apply none_app; apply NE; assumption. }
  assert (E5 : (if lock_time_enable ctl
     then param_rows (gnss_letter g) (type_name t) (param_letter LockTime) (row_time ctl g p) (slots g) (o_ltm o) cell_lock B4 else @Ok print_buffer B4)
     = Ok (B4 ++ (if lock_time_enable ctl then entries g LockTime t (row_time ctl g p) (o_ltm o) (cell_of ctl g o LockTime) else []))).
  { destruct (lock_time_enable ctl); [|now rewrite app_nil_r]. apply param_rows_ok.
    - exact D3.
    - intros slot ob I. eexists; split; [reflexivity|]. intros sat _. cbn beta. cbn [cell_of].
      rewrite (proj2 (dict_lookup g _ slot ob sat D3 I)). destruct (zget ob sat) as [v|] eqn:E; [|reflexivity].
      cbn [option_map]. rewrite (proj1 (small_float v (DL slot sat v ltac:(rewrite (proj2 (dict_lookup g _ slot ob sat D3 I)); exact E)))). reflexivity.
    - intros sgn L. apply B4N; solve [assumption|discriminate]. }
  rewrite E5. cbn [bind].
  assert (E6 : forall B : print_buffer, (forall sgn, slen sgn = 2 -> sget B (obs_file g HalfCycle sgn t) = None) ->
     (if half_cycle_enable ctl
     then param_rows (gnss_letter g) (type_name t) (param_letter HalfCycle) (row_time ctl g p) (slots g) (o_hca o) cell_half B else Ok B)
     = Ok (B ++ (if half_cycle_enable ctl then entries g HalfCycle t (row_time ctl g p) (o_hca o) (cell_of ctl g o HalfCycle) else []))).
  { intros B HB. destruct (half_cycle_enable ctl) eqn:HE; [|now rewrite app_nil_r]. apply param_rows_ok.
    - exact D4.
    - intros slot ob I. eexists; split; [reflexivity|]. intros sat _. cbn beta. cbn [cell_of].
      rewrite (proj2 (dict_lookup g _ slot ob sat D4 I)). destruct (zget ob sat) as [v|]; reflexivity.
    - exact HB. }
  rewrite E6.
  - unfold buffer_of. cbv zeta. fold o. unfold B4. rewrite <- !app_assoc. reflexivity.
  - intros sgn L. apply none_app; [apply B4N; solve [assumption|discriminate]|].
    destruct (lock_time_enable ctl); [|reflexivity]. apply NE; solve [assumption|discriminate].
Qed.

Lemma columns_eq ctl g o p sgn : map (cell_of ctl g o p sgn) (zrange 1 (slots g + 1)) = columns ctl g o p sgn.
Proof. unfold columns. rewrite <- seq_zrange, map_map. reflexivity. Qed.

Lemma buffer_get ctl g t x p sgn : printable g t x -> slen sgn = 2 ->
  sget (buffer_of ctl g t x) (obs_file g p sgn t) =
  if contributes ctl (ob_obs x) p sgn then Some (row_time ctl g x, columns ctl g (ob_obs x) p sgn) else None.
Proof.
  intros (EG & ET & D1 & D2 & D3 & D4 & D5 & D6 & DL) L. unfold buffer_of. cbv zeta. set (o := ob_obs x) in *.
  rewrite <- columns_eq.
  assert (NE : forall V (d : obs_dict V) q' v, dict_ok g d -> p <> q' ->
     sget (entries g q' t (row_time ctl g x) d v) (obs_file g p sgn t) = None).
  { intros V d q' v Hd N. apply entries_other; [apply (dict_len g d Hd)|exact L|exact N]. }
  assert (GE : forall V (d : obs_dict V) v, dict_ok g d ->
     sget (entries g p t (row_time ctl g x) d v) (obs_file g p sgn t) =
     match sget d sgn with Some _ => Some (row_time ctl g x, map (v sgn) (zrange 1 (slots g + 1))) | None => None end).
  { intros V d v Hd. apply entries_get; [apply (dict_len g d Hd)|exact L]. }
  assert (S1 : forall (a b : print_buffer) k, sget a k = None -> sget (a ++ b) k = sget b k).
  { intros a b k H. unfold sget in *. now rewrite dget_app, H. }
  assert (S2 : forall (a b : print_buffer) k, sget b k = None -> sget (a ++ b) k = sget a k).
  { intros a b k H. unfold sget in *. rewrite dget_app, H. destruct (dget String.eqb a k); reflexivity. }
  assert (NL : p <> LockTime -> sget (if lock_time_enable ctl then entries g LockTime t (row_time ctl g x) (o_ltm o) (cell_of ctl g o LockTime) else []) (obs_file g p sgn t) = None).
  { intros N. destruct (lock_time_enable ctl); [|reflexivity]. now apply NE. }
  assert (NH : p <> HalfCycle -> sget (if half_cycle_enable ctl then entries g HalfCycle t (row_time ctl g x) (o_hca o) (cell_of ctl g o HalfCycle) else []) (obs_file g p sgn t) = None).
  { intros N. destruct (half_cycle_enable ctl); [|reflexivity]. now apply NE. }
  unfold contributes. fold o.
  destruct p.
  - rewrite S2 by (repeat apply none_app; try (apply NE; [assumption|discriminate]); [apply NL|apply NH]; discriminate).
    rewrite GE by assumption. destruct (sget (o_rng o) sgn); reflexivity.
  - rewrite S1 by (apply NE; [assumption|discriminate]).
    rewrite S2 by (repeat apply none_app; try (apply NE; [assumption|discriminate]); [apply NL|apply NH]; discriminate).
    rewrite GE by assumption. destruct (sget (o_phs o) sgn); reflexivity.
  - do 2 rewrite S1 by (apply NE; [assumption|discriminate]).
    rewrite S2 by (repeat apply none_app; try (apply NE; [assumption|discriminate]); [apply NL|apply NH]; discriminate).
    rewrite GE by assumption. destruct (sget (o_dpl o) sgn); reflexivity.
  - do 3 rewrite S1 by (apply NE; [assumption|discriminate]).
    rewrite S2 by (repeat apply none_app; [apply NL|apply NH]; discriminate).
    rewrite GE by assumption. destruct (sget (o_c2n o) sgn); reflexivity.
  - do 4 rewrite S1 by (apply NE; [assumption|discriminate]).
    rewrite S2 by (apply NH; discriminate). destruct (lock_time_enable ctl); [|reflexivity].
    rewrite GE by assumption. destruct (sget (o_ltm o) sgn); reflexivity.
  - do 4 rewrite S1 by (apply NE; [assumption|discriminate]). rewrite S1 by (apply NL; discriminate).
    destruct (half_cycle_enable ctl); [|reflexivity].
    rewrite GE by assumption. destruct (sget (o_hca o) sgn); reflexivity.
Qed.

Lemma NoDup_app_intro {A} (a b : list A) : NoDup a -> NoDup b -> (forall x, In x a -> In x b -> False) -> NoDup (a ++ b).
Proof.
  induction 1 as [|x r NI ND IH]; intros NB D; [exact NB|]. cbn [app]. constructor.
  - intros I. apply in_app_or in I. destruct I as [I|I]; [contradiction|]. exact (D x (or_introl eq_refl) I).
  - apply IH; [exact NB|]. intros y I1 I2. exact (D y (or_intror I1) I2).
Qed.

Definition named (g : gnss) (t : msm_type) (f : string) : Prop :=
  exists p sgn, In sgn (map snd (signal_codes g)) /\ f = obs_file g p sgn t.

Lemma entries_named {V} g p t time (d : obs_dict V) v : dict_ok g d ->
  NoDup (map fst (entries g p t time d v)) /\
  forall f, In f (map fst (entries g p t time d v)) -> exists sgn, In sgn (map snd (signal_codes g)) /\ f = obs_file g p sgn t.
Proof.
  intros Hd. pose proof (dict_len g d Hd) as HL. destruct Hd as (ND & HC).
  assert (E : map fst (entries g p t time d v) = map (fun s => obs_file g p s t) (map fst d)).
  { unfold entries. rewrite !map_map. apply map_ext. intros [s o]. reflexivity. }
  rewrite E. split.
  - clear E HC. induction (map fst d) as [|s r IH]; [constructor|]. cbn [map]. inversion ND as [|? ? NI ND']; subst.
    constructor; [|apply IH; [exact ND'|intros; apply HL; now right]].
    intros I. apply in_map_iff in I. destruct I as (s' & X & I). apply obs_file_inj in X; [|apply HL; now right|apply HL; now left].
    destruct X as (_ & _ & -> & _). contradiction.
  - intros f I. apply in_map_iff in I. destruct I as (s & <- & I). exists s. split; [now apply HC|reflexivity].
Qed.

Lemma buffer_names ctl g t x : printable g t x ->
  NoDup (map fst (buffer_of ctl g t x)) /\ Forall (named g t) (map fst (buffer_of ctl g t x)).
Proof.
  intros (EG & ET & D1 & D2 & D3 & D4 & D5 & D6 & DL). unfold buffer_of. cbv zeta. set (o := ob_obs x) in *.
  assert (J : forall q (b : print_buffer), NoDup (map fst b) -> Forall (named g t) (map fst b) ->
     (forall sgn, slen sgn = 2 -> ~ In (obs_file g q sgn t) (map fst b)) ->
     forall V (d : obs_dict V) v, dict_ok g d ->
     NoDup (map fst (entries g q t (row_time ctl g x) d v ++ b)) /\
     Forall (named g t) (map fst (entries g q t (row_time ctl g x) d v ++ b)) /\
     forall r sgn, slen sgn = 2 -> r <> q -> ~ In (obs_file g r sgn t) (map fst b) ->
       ~ In (obs_file g r sgn t) (map fst (entries g q t (row_time ctl g x) d v ++ b))).
  { intros q b NB FB DB V d v Hd. destruct (entries_named g q t (row_time ctl g x) d v Hd) as (N1 & F1).
    rewrite map_app. split; [|split].
    - apply NoDup_app_intro; [exact N1|exact NB|]. intros f I1 I2. apply F1 in I1. destruct I1 as (sgn & IC & ->).
      apply (DB sgn (code_length g sgn IC) I2).
    - apply Forall_app. split; [|exact FB]. apply Forall_forall. intros f I. destruct (F1 f I) as (sgn & IC & ->).
      exists q, sgn. now split.
    - intros r sgn L N NI I. apply in_app_or in I. destruct I as [I|I]; [|contradiction].
      apply F1 in I. destruct I as (s' & IC & X). apply obs_file_inj in X; [|exact L|exact (code_length g s' IC)]. destruct X as (_ & X & _). contradiction. }
  assert (B6 : forall b, b = (if half_cycle_enable ctl then entries g HalfCycle t (row_time ctl g x) (o_hca o) (cell_of ctl g o HalfCycle) else []) ->
    NoDup (map fst b) /\ Forall (named g t) (map fst b) /\ forall r sgn, slen sgn = 2 -> r <> HalfCycle -> ~ In (obs_file g r sgn t) (map fst b)).
  { intros b ->. destruct (half_cycle_enable ctl); [|now repeat constructor].
    destruct (J HalfCycle [] ltac:(constructor) ltac:(constructor) ltac:(auto) _ (o_hca o) (cell_of ctl g o HalfCycle) D4) as (X1 & X2 & X3).
    rewrite app_nil_r in X1, X2, X3. split; [exact X1|]. split; [exact X2|]. intros r sgn L N. now apply X3. }
  destruct (B6 _ eq_refl) as (N6 & F6 & I6). clear B6.
  match goal with |- NoDup (map fst (_ ++ _ ++ _ ++ _ ++ _ ++ ?b)) /\ _ => set (b6 := b) in * end.
  assert (B5 : forall b, b = (if lock_time_enable ctl then entries g LockTime t (row_time ctl g x) (o_ltm o) (cell_of ctl g o LockTime) else []) ++ b6 ->
    NoDup (map fst b) /\ Forall (named g t) (map fst b) /\ forall r sgn, slen sgn = 2 -> r <> HalfCycle -> r <> LockTime -> ~ In (obs_file g r sgn t) (map fst b)).
  { intros b ->. destruct (lock_time_enable ctl); [|cbn [app]; repeat (split; [assumption|]); auto].
    destruct (J LockTime b6 N6 F6 ltac:(intros; apply I6; [assumption|discriminate]) _ (o_ltm o) (cell_of ctl g o LockTime) D3) as (X1 & X2 & X3).
    split; [exact X1|]. split; [exact X2|]. intros r sgn L N N'. apply X3; auto. }
  destruct (B5 _ eq_refl) as (N5 & F5 & I5). clear B5.
  match goal with |- NoDup (map fst (_ ++ _ ++ _ ++ _ ++ ?b)) /\ _ => set (b5 := b) in * end.
  destruct (J CNR b5 N5 F5 ltac:(intros; apply I5; [assumption|discriminate|discriminate]) _ (o_c2n o) (cell_of ctl g o CNR) D6) as (N4 & F4 & X4).
  set (b4 := entries g CNR _ _ _ _ ++ b5) in *.
  assert (I4 : forall r sgn, slen sgn = 2 -> r <> HalfCycle -> r <> LockTime -> r <> CNR -> ~ In (obs_file g r sgn t) (map fst b4)) by (intros; apply X4; auto).
  destruct (J Doppler b4 N4 F4 ltac:(intros; apply I4; solve [assumption|discriminate]) _ (o_dpl o) (cell_of ctl g o Doppler) D5) as (N3 & F3 & X3).
  set (b3 := entries g Doppler _ _ _ _ ++ b4) in *.
  assert (I3 : forall r sgn, slen sgn = 2 -> r <> HalfCycle -> r <> LockTime -> r <> CNR -> r <> Doppler -> ~ In (obs_file g r sgn t) (map fst b3)) by (intros; apply X3; auto).
  destruct (J Phase b3 N3 F3 ltac:(intros; apply I3; solve [assumption|discriminate]) _ (o_phs o) (cell_of ctl g o Phase) D2) as (N2 & F2 & X2).
  set (b2 := entries g Phase _ _ _ _ ++ b3) in *.
  destruct (J CodeRange b2 N2 F2 ltac:(intros; apply X2; [assumption|discriminate|apply I3; solve [assumption|discriminate]]) _ (o_rng o) (cell_of ctl g o CodeRange) D1) as (N1 & F1 & _).
  split; assumption.
Qed.

(** ** Texts *)
Lemma csv_join f fs : fs <> [] -> f ++ [44] ++ py_join 44 fs ++ [10] = csv (f :: fs).
Proof.
  revert f. induction fs as [|a r IH]; intros f N; [congruence|]. cbn [csv]. destruct r as [|b r].
  - reflexivity.
  - cbn [app]. change (py_join 44 (a :: b :: r)) with (a ++ 44 :: py_join 44 (b :: r)). rewrite <- app_assoc. cbn [app].
    specialize (IH a ltac:(discriminate)). cbn [app] in IH. rewrite IH. reflexivity.
Qed.

Lemma shows_int_fmt w z : shows_int w z (fmt_int w z) /\ field (fmt_int w z).
Proof.
  destruct (fmt_int_spec w z) as (t & P & D). split; [exists t; now split|].
  eapply padded_plain; [exact P|]. eapply decimal_plain; exact D.
Qed.

Lemma shows_cell_fmt w k c : 0 <= k ->
  let f := fmt_float w k (match c with Some v => v | None => S754_nan end) in
  shows_cell w k c f /\ field f.
Proof.
  intros K. cbv zeta. destruct c as [x|].
  - cbn [shows_cell]. destruct (is_finite_SF x) eqn:F.
    + destruct (fmt_float_finite w k x K F) as (t & n & P & D & R). split; [exists t, n; now repeat split|].
      eapply padded_plain; [exact P|]. eapply decimal_plain; exact D.
    + split; [trivial|]. destruct x as [s|s| |s m e]; try discriminate F; cbn [fmt_float];
        (eapply padded_plain; [apply padded_pad|]); try destruct s; repeat constructor; unfold plain; lia.
  - cbn [shows_cell fmt_float]. split; [apply padded_pad|]. eapply padded_plain; [apply padded_pad|].
    repeat constructor; unfold plain; lia.
Qed.

Lemma Forall2_map {A B} (R : A -> B -> Prop) (f : A -> B) l : (forall x, In x l -> R x (f x)) -> Forall2 R l (map f l).
Proof. induction l as [|a r IH]; intros H; constructor; [apply H; now left|apply IH; intros; apply H; now right]. Qed.
Lemma Forall_map_in {A B} (P : B -> Prop) (f : A -> B) l : (forall x, In x l -> P (f x)) -> Forall P (map f l).
Proof. induction l as [|a r IH]; intros H; constructor; [apply H; now left|apply IH; intros; apply H; now right]. Qed.

Lemma format_ok p : FORMAT (param_letter p) = Ok (param_width p, param_decimals p).
Proof. destruct p; reflexivity. Qed.
Lemma decimals_nonneg p : 0 <= param_decimals p.
Proof. destruct p; cbn; lia. Qed.

Lemma row_ok p time cells : cells <> [] ->
  is_row p time cells (format_obs_string (time, cells) (param_width p) (param_decimals p)).
Proof.
  intros N. unfold format_obs_string, is_row. cbn [fst snd].
  exists (fmt_int 10 time), (map (fun x => fmt_float (param_width p) (param_decimals p) (match x with Some v => v | None => S754_nan end)) cells).
  split; [apply csv_join; destruct cells; [congruence|discriminate]|].
  split; [constructor; [apply shows_int_fmt|]; apply Forall_map_in; intros; apply (shows_cell_fmt _ _ x), decimals_nonneg|].
  split; [apply shows_int_fmt|]. apply Forall2_map. intros x _. apply (shows_cell_fmt _ _ x), decimals_nonneg.
Qed.

Lemma positive_finite x : positive_f x = true -> is_finite_SF x = true.
Proof. destruct x; cbn; congruence. Qed.

Lemma shows_fmt w k x : 0 <= k -> is_finite_SF x = true -> shows w k x (fmt_float w k x) /\ field (fmt_float w k x).
Proof.
  intros K F. pose proof (shows_cell_fmt w k (Some x) K) as H. cbv zeta in H. cbn [shows_cell] in H. rewrite F in H. exact H.
Qed.

Lemma seq_range_nonempty g : zrange 1 (slots g + 1) <> [].
Proof. destruct g; discriminate. Qed.

Lemma header_ok ctl g p sgn t : controls_ok ctl -> In sgn (map snd (signal_codes g)) ->
  exists h1 h2, make_header ctl (obs_file g p sgn t) = Ok (h1, h2) /\ is_header1 g p h1 /\ is_header2 ctl g p sgn h2.
Proof.
  intros C S. pose proof (code_length g sgn S) as L. unfold make_header.
  rewrite name_gnss, name_param, name_sgn by exact L. cbv zeta. rewrite format_ok. cbn [bind].
  rewrite max_sats_ok. cbn [bind]. replace (MARGO_FILE_ID (param_letter p)) with (@Ok Z (param_id p)) by (destruct p; reflexivity).
  cbn [bind]. rewrite make_crr_frq_ok, crr_frq_code by assumption. cbn [bind].
  eexists _, _. split; [reflexivity|]. split.
  - exists (fmt_int 10 (param_id p)), (map (fun k => fmt_int (param_width p) (Z.of_nat k)) (seq 1 (Z.to_nat (slots g)))).
    split.
    { rewrite <- csv_join by (destruct g; discriminate). cbn [py_join]. rewrite <- app_assoc. cbn [app]. do 4 f_equal.
      rewrite <- (map_map Z.of_nat (fmt_int (param_width p))), seq_zrange.
      assert (E : zrange 1 (slots g + 1) = map (fun x => x + 1) (zrange 0 (slots g))) by (destruct g; reflexivity).
      rewrite E, map_map. reflexivity. }
    split; [constructor; [apply shows_int_fmt|]; apply Forall_map_in; intros; apply shows_int_fmt|].
    split; [apply shows_int_fmt|]. apply Forall2_map. intros x _. apply shows_int_fmt.
  - assert (W : (if param_width p <? 9 then 9 else param_width p) = Z.max 9 (param_width p)) by (destruct p; reflexivity).
    assert (K : (if param_decimals p <? 4 then 4 else param_decimals p) = 4) by (destruct p; reflexivity).
    rewrite W, K.
    assert (FC : is_finite_SF (carrier g sgn) = true).
    { assert (G : forallb (fun c => is_finite_SF (carrier g c)) (map snd (signal_codes g)) = true) by (destruct g; vm_compute; reflexivity).
      rewrite forallb_forall in G. exact (G _ S). }
    assert (FS : forall k, In k (seq 1 (Z.to_nat (slots g))) -> is_finite_SF (sat_carrier ctl g sgn (Z.of_nat k)) = true).
    { intros k I. apply in_seq in I. apply positive_finite, sat_carrier_pos; [assumption|assumption|]. pose proof (slots_pos g). lia. }
    exists (fmt_float 10 4 (carrier g sgn)), (map (fun k => fmt_float (Z.max 9 (param_width p)) 4 (sat_carrier ctl g sgn (Z.of_nat k))) (seq 1 (Z.to_nat (slots g)))).
    split.
    { rewrite <- csv_join by (destruct g; discriminate). cbn [py_join]. rewrite <- app_assoc. cbn [app]. do 4 f_equal.
      rewrite <- seq_zrange, !map_map. reflexivity. }
    split; [constructor; [apply shows_fmt; [lia|exact FC]|]; apply Forall_map_in; intros; apply shows_fmt; [lia|auto]|].
    split; [apply shows_fmt; [lia|exact FC]|]. apply Forall2_map. intros x I. apply shows_fmt; [lia|auto].
Qed.
