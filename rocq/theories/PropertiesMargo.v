(** * PropertiesMargo: final statements for C30-C32 and C46 (MARGO printer). *)
From Coq Require Import Reals Psatz.
From Flocq Require Import Core BinarySingleNaN.
From Verif Require Import PyBase PyDict PyFloat MessageSpec BitsProofs MsmModel MsmSpec MsmScaleSpec MsmConvert MsmScaleTheorems
  MsmTheorems MsmRange TestData PropertiesMsm PyFormat FormatSpec FormatProofs DecoderModel MargoModel MargoSpec MargoProofs MargoFiles FloatProofs MargoUnits.
Local Open Scope string_scope.
Local Open Scope list_scope.
Local Open Scope Z_scope.

(** ** C30: the time of a row *)

Theorem C30_gps_time : forall g time day shift, time_ok g time day -> 0 <= shift <= 10000 ->
  conv_to_gps_time time day shift (gnss_letter g) = gps_time shift g time day /\
  0 <= gps_time shift g time day < week_ms.
Proof.
  intros g time day shift T S. unfold time_ok, conv_to_gps_time, gps_time, week_ms in *.
  destruct g; cbn [gnss_letter String.eqb Ascii.eqb Bool.eqb] in *; cbv zeta.
  1,3,4,5,7: split; [reflexivity|lia].
  - destruct (Z.ltb_spec (time + day * 86400000 - (10800 - shift) * 1000) 0); split; lia.
  - destruct (Z.leb_spec 604800000 (time + 14000)); split; lia.
Qed.
Print Assumptions C30_gps_time.

(** The time of every row of a message. *)
Theorem C30_row_time : forall ctl g t o buf name time cells,
  controls_ok ctl -> printable g t o -> time_ok g (d_time (ob_hdr o)) (d_day (ob_hdr o)) ->
  0 <= gps_utc_shift ctl <= 10000 ->
  to_print_buffer ctl o = Ok buf -> In (name, (time, cells)) buf ->
  time = gps_time (gps_utc_shift ctl) g (d_time (ob_hdr o)) (d_day (ob_hdr o)) /\ 0 <= time < week_ms.
Proof.
  intros ctl g t o buf name time cells C P T S E I. rewrite (to_print_buffer_ok ctl g t o C P) in E. inversion E; subst buf.
  assert (X : time = row_time ctl g o).
  { unfold buffer_of, entries in I. cbv zeta in I.
    repeat (apply in_app_or in I; destruct I as [I|I]);
      try (destruct (lock_time_enable ctl); [|destruct I]); try (destruct (half_cycle_enable ctl); [|destruct I]);
      apply in_map_iff in I; destruct I as ([s d] & X & _); now inversion X. }
  destruct (C30_gps_time g _ _ _ T S) as (Y & R). rewrite <- Y in R |- *. subst time. rewrite <- row_time_ok.
  destruct g; cbn [gnss_letter String.eqb Ascii.eqb Bool.eqb negb] in *; split; solve [reflexivity|exact R].
Qed.
Print Assumptions C30_row_time.

(** Wrap-arounds: Sunday 02:59:59 Moscow time belongs to the previous GPS week; the last
    seconds of a BeiDou week belong to the next one. *)
Example C30_nonvacuous :
  time_ok GLO 10799000 0 /\ conv_to_gps_time 10799000 0 18 "R" = 17000 /\
  conv_to_gps_time 0 0 18 "R" = 604800000 - 10800000 + 18000 /\
  time_ok BDS 604799000 0 /\ conv_to_gps_time 604799000 0 18 "B" = 13000.
Proof. vm_compute. repeat split; congruence. Qed.

(** The day of week is transmitted in 3 bits; the value 7 ("unknown") gives a time outside the
    week. *)
Theorem C30_unknown_day : exists time, 0 <= time < 86400000 /\ week_ms <= conv_to_gps_time time 7 18 "R".
Proof. exists 50000000. vm_compute. repeat split; congruence. Qed.
Print Assumptions C30_unknown_day.

(** ** C31: columns *)

Theorem C31_columns : forall ctl g t o, controls_ok ctl -> printable g t o ->
  exists buf, to_print_buffer ctl o = Ok buf /\
  (forall p sgn, slen sgn = 2 ->
     sget buf (obs_file g p sgn t) =
     if contributes ctl (ob_obs o) p sgn then Some (row_time ctl g o, columns ctl g (ob_obs o) p sgn) else None) /\
  (forall name, sget buf name <> None -> exists p sgn, known g sgn /\ name = obs_file g p sgn t).
Proof.
  intros ctl g t o C P. exists (buffer_of ctl g t o). split; [now apply to_print_buffer_ok|]. split.
  - intros p sgn L. now apply buffer_get.
  - intros name N. destruct (buffer_names ctl g t o P) as (_ & F). rewrite Forall_forall in F.
    destruct (F name) as (p & sgn & K & X); [|exists p, sgn; now split].
    destruct (sget (buffer_of ctl g t o) name) eqn:E; [|congruence].
    apply dget_In in E; [|apply String.eqb_eq]. change name with (fst (name, m)). now apply in_map.
Qed.
Print Assumptions C31_columns.

(** One column per slot; column k holds satellite k's value or "not available". *)
Theorem C31_placement : forall ctl g o p sgn,
  zlen (columns ctl g o p sgn) = slots g /\
  forall sat, 1 <= sat <= slots g ->
    nth_error (columns ctl g o p sgn) (Z.to_nat (sat - 1)) = Some (cell_of ctl g o p sgn sat).
Proof.
  intros ctl g o p sgn. pose proof (slots_pos g). split.
  - unfold columns, zlen. rewrite map_length, seq_length. lia.
  - intros sat R. unfold columns. rewrite nth_error_map.
    rewrite (nth_error_nth' _ 0%nat) by (rewrite seq_length; lia).
    cbn [option_map]. rewrite seq_nth by lia. do 2 f_equal. lia.
Qed.
Print Assumptions C31_placement.

(** Nothing in range is lost, nothing is invented, and an unresolved half-cycle ambiguity hides
    the phase unless the user asked for it. *)
Theorem C31_values : forall ctl g o sgn sat,
  cell_of ctl g o CodeRange sgn sat = lookup (o_rng o) sgn sat /\
  cell_of ctl g o CNR sgn sat = lookup (o_c2n o) sgn sat /\
  (cell_of ctl g o Doppler sgn sat = None <-> lookup (o_dpl o) sgn sat = None) /\
  (cell_of ctl g o LockTime sgn sat = None <-> lookup (o_ltm o) sgn sat = None) /\
  (cell_of ctl g o HalfCycle sgn sat = None <-> lookup (o_hca o) sgn sat = None) /\
  (half_cycle_enable ctl = true ->
     (cell_of ctl g o Phase sgn sat = None <-> lookup (o_phs o) sgn sat = None)) /\
  (half_cycle_enable ctl = false -> lookup (o_hca o) sgn sat = Some false ->
     (cell_of ctl g o Phase sgn sat = None <-> lookup (o_phs o) sgn sat = None)) /\
  (half_cycle_enable ctl = false -> lookup (o_hca o) sgn sat = Some true ->
     cell_of ctl g o Phase sgn sat = None).
Proof.
  intros ctl g o sgn sat.
  assert (M : forall A B (f : A -> B) x, option_map f x = None <-> x = None) by (intros A B f [x|]; cbn; split; congruence).
  cbn [cell_of]. split; [reflexivity|]. split; [reflexivity|].
  split; [apply M|]. split; [apply M|]. split; [apply M|].
  unfold ambiguous, lookup. split; [intros ->; apply M|].
  split; intros -> H; destruct (sget (o_hca o) sgn) as [h|]; try discriminate H; rewrite H; [apply M|reflexivity].
Qed.
Print Assumptions C31_values.

(** Every decoded message is printable. *)
Lemma table_dict {V} (val : sat_data -> list (option cell_data) -> cell_data -> option V) m codes :
  msm_ok m -> codes_of (m_gnss m) (m_sigs m) = Some codes -> dict_ok (m_gnss m) (table val codes (m_rows m)).
Proof.
  intros OK E. pose proof (codes_nodup_ok m codes OK E) as ND. unfold table.
  set (l := map _ (seq 0 (length codes))). assert (K : map fst l = codes) by apply table_keys_map.
  assert (S : forall f x, In x (map fst (filter f l)) -> In x codes).
  { intros f x I. rewrite <- K. apply in_map_iff in I. destruct I as (y & <- & I). apply filter_In in I. apply in_map. tauto. }
  split.
  - rewrite <- K in ND. clear - ND. induction l as [|a l IH]; [constructor|]. cbn [map] in ND. inversion ND; subst.
    cbn [filter]. destruct (match snd a with [] => false | _ => true end); [|apply IH; assumption]. cbn [map]. constructor; [|apply IH; assumption].
    intros I. apply in_map_iff in I. destruct I as (y & Y & I). apply filter_In in I. destruct I as [I _].
    apply H1. rewrite <- Y. now apply in_map.
  - intros sgn I. apply S in I. apply codes_of_spec in E. clear - E I.
    induction E as [|k c ks cs H F IH]; [destruct I|]. destruct I as [->|I]; [|now apply IH].
    apply signal_code_In in H. change sgn with (snd (k, sgn)). now apply in_map.
Qed.

Theorem C31_decoded_printable : forall buf m codes r,
  msm_ok m -> msm_nonempty m -> carries buf (msm_bits m) -> passes_length_check m ->
  codes_of (m_gnss m) (m_sigs m) = Some codes ->
  decode_msm17 false buf = Ok (Some (MsmScaled r)) -> printable (m_gnss m) (m_type m) r.
Proof.
  intros buf m codes r OK NE C P E D. rewrite (decode_scaled_ok buf m OK NE C P), E in D.
  assert (X : r = scaled_of m codes) by congruence. clear D. subst r.
  unfold printable. cbn [scaled_of ob_atr ob_obs attributes_of a_gnss a_subset scaled_obs o_rng o_phs o_ltm o_hca o_dpl o_c2n].
  split; [reflexivity|]. split; [reflexivity|]. do 6 (split; [apply table_dict; assumption|]).
  intros sgn sat v H. apply lookup_table_inv in H; [|now apply (codes_nodup_ok m)].
  destruct H as (j & s & row & c & _ & I & _ & N & V).
  assert (IC : In c (m_cells m)).
  { unfold m_cells. apply in_flat_map. exists (s, row). split; [exact I|]. cbn [snd]. unfold row_cells.
    apply in_flat_map. exists (Some c). split; [|now left].
    assert (j < length row)%nat by (destruct (Nat.lt_ge_cases j (length row)) as [|G]; [assumption|]; rewrite nth_overflow in N by exact G; discriminate N).
    rewrite <- N. now apply nth_In. }
  destruct OK as (_ & _ & _ & _ & _ & _ & HC).
  assert (B : (extended (m_type m) = true /\ fits_u 10 (cd_lock c)) \/ (extended (m_type m) = false /\ (has_phase (m_type m) = true -> fits_u 4 (cd_lock c)))).
  { pose proof (fun w sg get => MsmConvert.cell_fits (m_type m) (m_cells m) HC w sg get c) as CF.
    destruct (m_type m) eqn:T; [right; split; [reflexivity|discriminate]|..];
      try (right; split; [reflexivity|intros _; apply (CF 4%nat Unsigned cd_lock); [cbn; tauto|exact IC]]);
      left; (split; [reflexivity|apply (CF 10%nat Unsigned cd_lock); [cbn; tauto|exact IC]]). }
  assert (VE : v = lock_ms (m_type m) (cd_lock c) /\ has_phase (m_type m) = true).
  { unfold rep_ltm in V. destruct (has_cnr (m_type m)) eqn:HN.
    - split; [congruence|]. destruct (m_type m); try reflexivity; discriminate HN.
    - destruct (rep_phs (m_type m) s (firstn j row) c) as [x|] eqn:RP; [|discriminate V]. split; [congruence|].
      unfold rep_phs, phase_range in RP. destruct (blocked _ _ _); [discriminate RP|]. destruct (rough_ms _ _); [|discriminate RP].
      destruct (has_phase (m_type m)); [reflexivity|discriminate RP]. }
  destruct VE as (-> & HP). unfold lock_ms. destruct B as [(-> & B)|(-> & B)].
  - assert (G : forallb (fun i => Z.abs (df407_ms i) <? 2 ^ 53) (zrange 0 1024) = true) by (vm_compute; reflexivity).
    rewrite forallb_forall in G. apply Z.ltb_lt, G, zrange_In. unfold fits_u in B. change (2 ^ Z.of_nat 10) with 1024 in B. lia.
  - assert (G : forallb (fun i => Z.abs (df402_ms i) <? 2 ^ 53) (zrange 0 16) = true) by (vm_compute; reflexivity).
    rewrite forallb_forall in G. apply Z.ltb_lt, G, zrange_In. specialize (B HP). unfold fits_u in B. change (2 ^ Z.of_nat 4) with 16 in B. lia.
Qed.
Print Assumptions C31_decoded_printable.

(** The sample message (satellites 3 and 17, signals "1C" and "2L") with the default controls:
    satellite 17 has both signals, satellite 3 only "1C" (its half-cycle ambiguity is
    unresolved, so its phase is hidden). *)
Lemma default_controls_ok : controls_ok default_margo.
Proof.
  intros sat H. assert (F : forallb (fun s => match zget (glo_lit_tab default_margo) s with
    Some k => (-1000 <=? k) && (k <=? 1000) | None => false end) (zrange 1 25) = true) by (vm_compute; reflexivity).
  rewrite forallb_forall in F. specialize (F sat (proj2 (zrange_In 1 25 sat) ltac:(lia))).
  destruct (zget _ sat) as [k|]; [|discriminate F]. exists k. split; [reflexivity|lia].
Qed.
Definition sample_obs : observables := scaled_of sample_msm7 ["1C"; "2L"].
Lemma sample_printable : printable GPS MSM7 sample_obs.
Proof.
  destruct C13_nonvacuous as (A & B & C & _).
  apply (C31_decoded_printable (frame_bits (msm_bits sample_msm7) [9; 8; 7]) sample_msm7 ["1C"; "2L"]);
    [exact A|exact B|exact C|vm_compute; reflexivity|reflexivity|vm_compute; reflexivity].
Qed.
Example C31_nonvacuous :
  controls_ok default_margo /\ printable GPS MSM7 sample_obs /\
  contributes default_margo (ob_obs sample_obs) CodeRange "2L" = true /\
  cell_of default_margo GPS (ob_obs sample_obs) CodeRange "2L" 17 <> None /\
  cell_of default_margo GPS (ob_obs sample_obs) CodeRange "2L" 3 = None.
Proof.
  split; [exact default_controls_ok|]. split; [exact sample_printable|].
  split; [vm_compute; reflexivity|]. split; [vm_compute; discriminate|vm_compute; reflexivity].
Qed.

(** Satellites beyond the slots of the system have no column: their measurements are silently
    left out.  The decoder does deliver such satellites (numbers up to 64). *)
Definition beyond (ranges : list (Z * flt)) : observables :=
  {| ob_obs := {| o_rng := [("2I", ranges)]; o_phs := []; o_ltm := []; o_hca := []; o_dpl := []; o_c2n := [] |};
     ob_hdr := ob_hdr sample_obs; ob_aux := ob_aux sample_obs;
     ob_atr := {| a_gnss := "B"; a_subset := "MSM4"; a_msg_number := 1124 |} |}.
Theorem C31_beyond_slots_refuted : exists o o' v,
  printable BDS MSM4 o /\ printable BDS MSM4 o' /\
  lookup (o_rng (ob_obs o)) "2I" 40 = Some v /\ lookup (o_rng (ob_obs o')) "2I" 40 = None /\
  to_print_buffer default_margo o = to_print_buffer default_margo o'.
Proof.
  exists (beyond [(7, f_of_int 21000000); (40, f_of_int 22000000)]), (beyond [(7, f_of_int 21000000)]), (f_of_int 22000000).
  assert (P : forall r, printable BDS MSM4 (beyond r)).
  { intros r. unfold printable. cbn [beyond ob_atr ob_obs a_gnss a_subset o_rng o_phs o_ltm o_hca o_dpl o_c2n].
    split; [reflexivity|]. split; [reflexivity|].
    split; [split; [repeat constructor; intros []|intros sgn [<-|[]]; cbn; auto]|].
    do 5 (split; [split; [constructor|intros sgn []]|]). intros sgn sat v H. discriminate H. }
  split; [apply P|]. split; [apply P|]. split; [reflexivity|]. split; [reflexivity|]. vm_compute. reflexivity.
Qed.
Print Assumptions C31_beyond_slots_refuted.

(** ** C32: the files *)

Theorem C32_files : forall ctl hist, controls_ok ctl -> Forall event_ok hist ->
  exists st, print_all ctl margo_init hist = (st, Ok tt) /\ let files := mg_files (margo_close st) in
  (forall g p sgn t, known g sgn ->
     match recorded ctl g p sgn t hist with
     | [] => sget files (obs_path g p sgn t) = None
     | _ => exists c, sget files (obs_path g p sgn t) = Some c /\ file_of ctl g p sgn t hist c
     end) /\
  (forall path, sget files path <> None -> exists g p sgn t, known g sgn /\ path = obs_path g p sgn t).
Proof.
  intros ctl hist C F.
  assert (G : good ctl [] margo_init) by (intros g p sgn t K; cbn; reflexivity).
  destruct (print_all_ok ctl C hist [] margo_init inv_init G F) as (st & E & I & G'). exists st.
  split; [exact E|]. cbv zeta. cbn [margo_close mg_files]. split; [exact G'|exact (proj2 I)].
Qed.
Print Assumptions C32_files.

(** When files can be created, every contributing message is recorded. *)
Theorem C32_all_created : forall ctl g p sgn t hist,
  (forall e, In e hist -> pe_can_create e (obs_file g p sgn t) = true) ->
  recorded ctl g p sgn t hist = filter (goes_here ctl g p sgn t) hist.
Proof.
  intros ctl g p sgn t hist H. unfold recorded. destruct (filter (goes_here ctl g p sgn t) hist) as [|e r] eqn:E; [reflexivity|].
  cbn [drop_until]. rewrite H; [reflexivity|]. assert (I : In e (filter (goes_here ctl g p sgn t) hist)) by (rewrite E; now left).
  now apply filter_In in I.
Qed.
Print Assumptions C32_all_created.

(** Distinct (system, parameter, signal, subset) have distinct files. *)
Theorem C32_distinct : forall g p sgn t g' p' sgn' t', known g sgn -> known g' sgn' ->
  obs_path g p sgn t = obs_path g' p' sgn' t' -> (g, p, sgn, t) = (g', p', sgn', t').
Proof.
  intros g p sgn t g' p' sgn' t' K K' H. apply obs_path_inj in H; [|now apply (code_length g)|now apply (code_length g')].
  destruct H as (-> & -> & -> & ->). reflexivity.
Qed.
Print Assumptions C32_distinct.

(** Headers and rows have the same number of columns: [slots g] commas and one final line feed. *)
Lemma Forall2_length' {A B} (R : A -> B -> Prop) l m : Forall2 R l m -> length l = length m.
Proof. induction 1; cbn; congruence. Qed.
Definition one_line (commas : Z) (line : list Z) : Prop :=
  exists body, line = body ++ [10] /\ ~ In 10 body /\ Z.of_nat (count_occ Z.eq_dec body 44) = commas.
Lemma plain_count f : Forall plain f -> ~ In 10 f /\ count_occ Z.eq_dec f 44 = O.
Proof.
  intros F. rewrite Forall_forall in F. split.
  - intros I. destruct (F 10 I). congruence.
  - apply count_occ_not_In. intros I. destruct (F 44 I). congruence.
Qed.
Lemma csv_line : forall fs f, Forall field (f :: fs) -> one_line (zlen fs) (csv (f :: fs)).
Proof.
  induction fs as [|h r IH]; intros f F; inversion F as [|? ? F1 F2]; subst; destruct (plain_count f F1) as (N & C).
  - exists f. cbn [csv]. rewrite C. auto.
  - destruct (IH h F2) as (body & E & N' & C'). change (csv (f :: h :: r)) with (f ++ 44 :: csv (h :: r)). rewrite E.
    exists (f ++ 44 :: body). split; [now rewrite <- app_assoc|]. split.
    + intros I. apply in_app_or in I. destruct I as [I|[I|I]]; [auto|lia|auto].
    + rewrite count_occ_app. cbn [count_occ]. destruct (Z.eq_dec 44 44); [|congruence]. rewrite C. unfold zlen in *. cbn [length]. lia.
Qed.
Theorem C32_same_columns : forall ctl g p sgn t hist c, file_of ctl g p sgn t hist c ->
  exists lines, c = concat lines /\ zlen lines = 2 + zlen (recorded ctl g p sgn t hist) /\
    Forall (one_line (slots g)) lines.
Proof.
  intros ctl g p sgn t hist c (h1 & h2 & rows & -> & H1 & H2 & R). exists (h1 :: h2 :: rows).
  split; [reflexivity|]. split.
  { apply Forall2_length' in R. unfold zlen. cbn [length]. rewrite R. lia. }
  assert (LS : forall (B : Type) (Q : nat -> B -> Prop) (fs : list B), Forall2 Q (seq 1 (Z.to_nat (slots g))) fs -> zlen fs = slots g).
  { intros B Q fs F. apply Forall2_length' in F. rewrite seq_length in F. pose proof (slots_pos g). unfold zlen. lia. }
  constructor; [|constructor].
  - destruct H1 as (ft & fs & -> & F & _ & A). rewrite <- (LS _ _ _ A). now apply csv_line.
  - destruct H2 as (ft & fs & -> & F & _ & A). rewrite <- (LS _ _ _ A). now apply csv_line.
  - induction R as [|e row es rows (ft & fs & -> & F & _ & A) R IH]; constructor; [|exact IH].
    apply Forall2_length' in A. unfold columns in A. rewrite map_length, seq_length in A. pose proof (slots_pos g).
    assert (E : zlen fs = slots g) by (unfold zlen; lia). rewrite <- E. now apply csv_line.
Qed.
Print Assumptions C32_same_columns.

(** Two sample messages, no failures: "GPS/GC1C_MSM7.obs" gets two rows. *)
Definition sample_event (ok : bool) : print_event :=
  {| pe_gnss := GPS; pe_type := MSM7; pe_obs := sample_obs; pe_can_create := fun _ => ok |}.
Example C32_nonvacuous :
  Forall event_ok [sample_event true; sample_event true] /\ known GPS "1C" /\
  length (recorded default_margo GPS CodeRange "1C" MSM7 [sample_event true; sample_event true]) = 2%nat /\
  obs_path GPS CodeRange "1C" MSM7 = "GPS/GC1C_MSM7.obs".
Proof.
  split; [constructor; [exact sample_printable|constructor; [exact sample_printable|constructor]]|]. split; [cbn; auto|]. split; [vm_compute; reflexivity|reflexivity].
Qed.

(** ** C46: printing a message adds its rows *)
(** If every file can be created then every row of the message is added (C32_files with
    C32_all_created).  A failing creation, however, drops the row while the print call succeeds
    (and is counted as a success). *)
Theorem C46_silent_row_loss_refuted : exists ctl e g p sgn t st,
  controls_ok ctl /\ event_ok e /\ known g sgn /\ goes_here ctl g p sgn t e = true /\
  margo_print ctl (pe_can_create e) margo_init (OMsm (MsmScaled (pe_obs e))) = (st, Ok tt) /\
  sget (mg_files st) (obs_path g p sgn t) = None.
Proof.
  exists default_margo, (sample_event false), GPS, CodeRange, "1C", MSM7.
  destruct (C32_files default_margo [sample_event false] default_controls_ok) as (st & E & G & _);
    [constructor; [exact sample_printable|constructor]|].
  exists st. split; [exact default_controls_ok|]. split; [exact sample_printable|]. split; [cbn; auto|].
  split; [vm_compute; reflexivity|]. split.
  - cbn [print_all] in E. destruct (margo_print _ _ _ _) as [st1 [[]|x]]; congruence.
  - specialize (G GPS CodeRange "1C" MSM7 ltac:(cbn; auto)). 
    assert (R : recorded default_margo GPS CodeRange "1C" MSM7 [sample_event false] = []) by (vm_compute; reflexivity).
    rewrite R in G. exact G.
Qed.
Print Assumptions C46_silent_row_loss_refuted.

(** ** C45: cycles and Hz *)
(** The printed phase is the carrier phase range times carrier frequency over the speed of light
    (cycles), to within a millionth of a cycle for ranges below 2^27 m; the printed Doppler is
    minus the phase range rate in Hz, to within 10^-9 Hz below 2^14 m/s.  [carrier_hz] is the
    exact frequency, including the GLONASS frequency channel. *)
Theorem C45_phase_cycles : forall ctl g o sgn sat v, controls_ok ctl -> known g sgn -> 1 <= sat <= slots g ->
  lookup (o_phs o) sgn sat = Some v -> (half_cycle_enable ctl = true \/ ambiguous o sgn sat = false) ->
  is_val v (SF2R radix2 v) -> (Rabs (SF2R radix2 v) < 2 ^ 27)%R ->
  exists c, cell_of ctl g o Phase sgn sat = Some c /\ is_finite_SF c = true /\
    (Rabs (SF2R radix2 c - SF2R radix2 v * IZR (carrier_hz ctl g sgn sat) / IZR 299792458) <= / 1000000)%R.
Proof.
  intros ctl g o sgn sat v C K R L A V B. cbn [cell_of]. rewrite L.
  assert (X : negb (half_cycle_enable ctl) && ambiguous o sgn sat = false).
  { destruct A as [A|A]; rewrite A; [reflexivity|]. now destruct (half_cycle_enable ctl). }
  rewrite X. cbn [option_map]. eexists. split; [reflexivity|].
  assert (B' : (Rabs (SF2R radix2 v) < bpow radix2 27)%R).
  { replace (bpow radix2 27) with (2 ^ 27)%R; [exact B|]. change (bpow radix2 27) with 134217728%R. lra. }
  destruct (units_error v (SF2R radix2 v) 27 _ _ V B' ltac:(lia) (wave_close_ok ctl g sgn sat C K R)) as (F & E).
  split; [exact F|]. eapply Rle_trans; [exact E|]. change (bpow radix2 (27 - 47)) with (/ 1048576)%R. lra.
Qed.
Print Assumptions C45_phase_cycles.

Theorem C45_doppler_hz : forall ctl g o sgn sat v, controls_ok ctl -> known g sgn -> 1 <= sat <= slots g ->
  lookup (o_dpl o) sgn sat = Some v -> is_val v (SF2R radix2 v) -> (Rabs (SF2R radix2 v) < 2 ^ 14)%R ->
  exists c, cell_of ctl g o Doppler sgn sat = Some c /\ is_finite_SF c = true /\
    (Rabs (SF2R radix2 c - - (SF2R radix2 v) * IZR (carrier_hz ctl g sgn sat) / IZR 299792458) <= / 1000000000)%R.
Proof.
  intros ctl g o sgn sat v C K R L V B. cbn [cell_of]. rewrite L.
  cbn [option_map]. eexists. split; [reflexivity|].
  assert (B' : (Rabs (- SF2R radix2 v) < bpow radix2 14)%R).
  { rewrite Rabs_Ropp. replace (bpow radix2 14) with (2 ^ 14)%R; [exact B|]. change (bpow radix2 14) with 16384%R. lra. }
  destruct (units_error (f_neg v) (- SF2R radix2 v) 14 _ _ (neg_val _ _ V) B' ltac:(lia) (wave_close_ok ctl g sgn sat C K R)) as (F & E).
  split; [exact F|]. eapply Rle_trans; [exact E|]. change (bpow radix2 (14 - 47)) with (/ 8589934592)%R. lra.
Qed.
Print Assumptions C45_doppler_hz.
(** The conditions hold e.g. for 20200000.25 m and 20.5 m/s. *)
Example C45_nonvacuous :
  is_val (f_add (f_of_int 20200000) (dec_lit 25 2)) (SF2R radix2 (f_add (f_of_int 20200000) (dec_lit 25 2))) /\
  (Rabs (SF2R radix2 (f_add (f_of_int 20200000) (dec_lit 25 2))) < 2 ^ 27)%R.
Proof.
  set (x := f_add _ _). vm_compute in x. split.
  - split; [reflexivity|]. split; reflexivity.
  - unfold x. cbn [SF2R cond_Zopp]. unfold F2R. cbn [Fnum Fexp]. change (bpow radix2 (-28)) with (/ 268435456)%R. rewrite Rabs_pos_eq by lra. lra.
Qed.
