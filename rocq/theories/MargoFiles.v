(** * MargoFiles: contents of the MARGO files after any sequence of prints. *)
From Coq Require Import Ascii Reals.
From Verif Require Import PyBase PyDict PyFloat MsmModel MsmSpec MsmScaleSpec MsmScaleTheorems PyFormat FormatSpec
  FormatProofs DecoderModel MargoModel MargoSpec MargoProofs.
Local Open Scope string_scope.
Local Open Scope list_scope.
Local Open Scope Z_scope.

Definition known (g : gnss) (sgn : string) : Prop := In sgn (map snd (signal_codes g)).

Definition inv (st : margo) : Prop :=
  (forall g p sgn t, known g sgn ->
     is_open st (obs_file g p sgn t) = true <-> sget (mg_files st) (obs_path g p sgn t) <> None) /\
  (forall path, sget (mg_files st) path <> None -> exists g p sgn t, known g sgn /\ path = obs_path g p sgn t).

Definition upd (h : list Z) (ok : bool) (line : list Z) (prev : option (list Z)) : option (list Z) :=
  match prev with Some c => Some (c ++ line) | None => if ok then Some (h ++ line) else None end.

Lemma sget_sset_same {V} (d : list (string * V)) k v : sget (sset d k v) k = Some v.
Proof. apply dget_dset_same. apply String.eqb_eq. Qed.
Lemma sget_sset_other {V} (d : list (string * V)) k k' v : k <> k' -> sget (sset d k v) k' = sget d k'.
Proof. apply dget_dset_other. apply String.eqb_eq. Qed.

Lemma write_same st path text c : sget (mg_files st) path = Some c ->
  sget (mg_files (margo_write st path text)) path = Some (c ++ text).
Proof. intros H. unfold margo_write. cbn [mg_files]. rewrite H. apply sget_sset_same. Qed.
Lemma write_other st path path' text : path <> path' ->
  sget (mg_files (margo_write st path text)) path' = sget (mg_files st) path'.
Proof. intros H. unfold margo_write. cbn [mg_files]. now apply sget_sset_other. Qed.
Lemma write_open st path text n : is_open (margo_write st path text) n = is_open st n.
Proof. reflexivity. Qed.

Lemma append_key ctl ok st g p sgn t line h1 h2 : known g sgn -> inv st ->
  make_header ctl (obs_file g p sgn t) = Ok (h1, h2) ->
  exists st' b, append ctl ok st (obs_file g p sgn t) line = (st', Ok b) /\ inv st' /\
    sget (mg_files st') (obs_path g p sgn t) =
      upd (h1 ++ h2) (ok (obs_file g p sgn t)) line (sget (mg_files st) (obs_path g p sgn t)) /\
    (forall path, path <> obs_path g p sgn t -> sget (mg_files st') path = sget (mg_files st) path).
Proof.
  intros K (I1 & I2) H. pose proof (code_length g sgn K) as L.
  unfold append. rewrite path_ok. set (f := obs_file g p sgn t) in *. set (q := obs_path g p sgn t) in *.
  destruct (is_open st f) eqn:O; cbn [negb].
  - (* already open *)
    assert (N : sget (mg_files st) q <> None) by (apply I1; assumption).
    destruct (sget (mg_files st) q) as [c|] eqn:E; [|congruence].
    eexists _, _. split; [reflexivity|]. split; [|split].
    + split.
      * intros g' p' s' t' K'. rewrite write_open. rewrite I1 by exact K'.
        destruct (string_dec q (obs_path g' p' s' t')) as [X|X].
        { rewrite <- X. rewrite (write_same st q line c E). rewrite E. split; discriminate. }
        { now rewrite write_other by exact X. }
      * intros path N'. destruct (string_dec q path) as [X|X]; [subst path; exists g, p, sgn, t; now split|].
        rewrite write_other in N' by exact X. now apply I2.
    + cbn [upd]. now apply write_same.
    + intros path X. now apply write_other, not_eq_sym.
  - assert (N : sget (mg_files st) q = None).
    { destruct (sget (mg_files st) q) eqn:E; [|reflexivity].
      assert (is_open st f = true) by (apply I1; [exact K|fold q; congruence]). congruence. }
    unfold create_ofile. unfold f. rewrite path_ok. fold f. fold q. destruct (ok f).
    + set (st1 := {| mg_open := f :: mg_open st; mg_files := sset (mg_files st) q [] |}).
      rewrite H.
      assert (E1 : sget (mg_files st1) q = Some []) by apply sget_sset_same.
      pose proof (write_same st1 q h1 [] E1) as E2. set (st2 := margo_write st1 q h1) in *.
      pose proof (write_same st2 q h2 _ E2) as E3. set (st3 := margo_write st2 q h2) in *.
      pose proof (write_same st3 q line _ E3) as E4.
      assert (OT : forall path, path <> q -> sget (mg_files (margo_write st3 q line)) path = sget (mg_files st) path).
      { intros path X. unfold st3, st2. rewrite !write_other by now apply not_eq_sym.
        unfold st1. cbn [mg_files]. now apply sget_sset_other, not_eq_sym. }
      eexists _, _. split; [reflexivity|]. split; [|split].
      * split.
        { intros g' p' s' t' K'. assert (OP : is_open (margo_write st3 q line) (obs_file g' p' s' t') = String.eqb (obs_file g' p' s' t') f || is_open st (obs_file g' p' s' t')) by reflexivity.
          rewrite OP. destruct (string_dec (obs_path g' p' s' t') q) as [X|X].
          - rewrite X, E4. apply obs_path_inj in X; [|exact (code_length g' s' K')|exact L].
            destruct X as (-> & -> & -> & ->). unfold f. rewrite String.eqb_refl. split; [discriminate|reflexivity].
          - rewrite (OT _ X). rewrite <- I1 by exact K'.
            destruct (String.eqb_spec (obs_file g' p' s' t') f) as [Y|Y]; [|reflexivity].
            exfalso. apply X. apply obs_file_inj in Y; [|exact (code_length g' s' K')|exact L].
            destruct Y as (-> & -> & -> & ->). reflexivity. }
        { intros path N'. destruct (string_dec path q) as [X|X]; [subst path; exists g, p, sgn, t; now split|].
          rewrite OT in N' by exact X. now apply I2. }
      * rewrite E4, N. cbn [upd app]. reflexivity.
      * exact OT.
    + eexists _, _. split; [reflexivity|]. split; [now split|]. split; [now rewrite N|auto].
Qed.

Definition row_text (p : param) (row : margo_row) : list Z := format_obs_string row (param_width p) (param_decimals p).

Lemma append_rows_ok ctl ok g t : controls_ok ctl -> forall pbuf st,
  inv st -> NoDup (map fst pbuf) -> Forall (named g t) (map fst pbuf) ->
  exists st', append_rows ctl ok st pbuf = (st', Ok tt) /\ inv st' /\
   (forall g' p sgn t', known g' sgn -> (g' <> g \/ t' <> t) ->
      sget (mg_files st') (obs_path g' p sgn t') = sget (mg_files st) (obs_path g' p sgn t')) /\
   (forall p sgn h1 h2, known g sgn -> make_header ctl (obs_file g p sgn t) = Ok (h1, h2) ->
      sget (mg_files st') (obs_path g p sgn t) =
      match sget pbuf (obs_file g p sgn t) with
      | None => sget (mg_files st) (obs_path g p sgn t)
      | Some row => upd (h1 ++ h2) (ok (obs_file g p sgn t)) (row_text p row) (sget (mg_files st) (obs_path g p sgn t))
      end).
Proof.
  intros C. induction pbuf as [|[f row] r IH]; intros st I ND F.
  - exists st. cbn. auto.
  - cbn [map fst] in ND, F. inversion ND as [|? ? NI ND']; subst. inversion F as [|? ? (p0 & s0 & K0 & ->) F']; subst.
    pose proof (code_length g s0 K0) as L0. cbn [append_rows]. rewrite name_param, format_ok.
    destruct (header_ok ctl g p0 s0 t C K0) as (h1 & h2 & HH & _).
    fold (row_text p0 row).
    destruct (append_key ctl ok st g p0 s0 t (row_text p0 row) h1 h2 K0 I HH) as (st1 & b & E & I1 & S1 & O1).
    rewrite E. destruct (IH st1 I1 ND' F') as (st' & E' & I' & P1 & P2). exists st'. split; [exact E'|]. split; [exact I'|].
    assert (NEQ : forall g' p sgn t', known g' sgn -> (g', p, sgn, t') <> (g, p0, s0, t) -> obs_path g' p sgn t' <> obs_path g p0 s0 t).
    { intros g' p sgn t' K' N X. apply obs_path_inj in X; [|exact (code_length g' sgn K')|exact L0].
      destruct X as (-> & -> & -> & ->). congruence. }
    split.
    + intros g' p sgn t' K' N. rewrite P1 by assumption. apply O1. apply NEQ; [exact K'|]. intros X. inversion X. subst. destruct N; congruence.
    + intros p sgn k1 k2 K' H'. rewrite (P2 p sgn k1 k2 K' H'). unfold sget at 4. cbn [dget].
      destruct (String.eqb_spec (obs_file g p sgn t) (obs_file g p0 s0 t)) as [X|X].
      * apply obs_file_inj in X; [|exact (code_length g sgn K')|exact L0]. destruct X as (_ & -> & -> & _).
        assert (Y : sget r (obs_file g p0 s0 t) = None).
        { apply dget_None; [apply String.eqb_eq|exact NI]. }
        rewrite Y, S1. rewrite HH in H'. inversion H'; subst. reflexivity.
      * rewrite O1 by (apply NEQ; [exact K'|]; intros Y; inversion Y; subst; congruence). reflexivity.
Qed.

Lemma drop_until_snoc {A} (f : A -> bool) l e :
  drop_until f (l ++ [e]) = match drop_until f l with [] => if f e then [e] else [] | x :: r => (x :: r) ++ [e] end.
Proof.
  induction l as [|a r IH]; [reflexivity|]. cbn [app drop_until]. destruct (f a) eqn:E; [reflexivity|].
  exact IH.
Qed.

Definition good (ctl : margo_controls) (hist : list print_event) (st : margo) : Prop :=
  forall g p sgn t, known g sgn ->
  match recorded ctl g p sgn t hist with
  | [] => sget (mg_files st) (obs_path g p sgn t) = None
  | _ => exists c, sget (mg_files st) (obs_path g p sgn t) = Some c /\ file_of ctl g p sgn t hist c
  end.

Lemma columns_nonempty ctl g o p sgn : columns ctl g o p sgn <> [].
Proof. unfold columns. destruct g; discriminate. Qed.

Lemma print_step ctl hist st e : controls_ok ctl -> inv st -> good ctl hist st -> event_ok e ->
  exists st', margo_print ctl (pe_can_create e) st (OMsm (MsmScaled (pe_obs e))) = (st', Ok tt) /\
    inv st' /\ good ctl (hist ++ [e]) st'.
Proof.
  intros C I G OK. destruct e as [g t x ok]. unfold event_ok in OK. cbn [pe_gnss pe_type pe_obs pe_can_create] in *.
  cbn [margo_print]. unfold print_observables. rewrite (to_print_buffer_ok ctl g t x C OK).
  destruct (buffer_names ctl g t x OK) as (ND & NM).
  destruct (append_rows_ok ctl ok g t C (buffer_of ctl g t x) st I ND NM) as (st' & E & I' & P1 & P2).
  exists st'. split; [exact E|]. split; [exact I'|].
  intros g' p sgn t' K'. specialize (G g' p sgn t' K'). unfold file_of, recorded in *. rewrite filter_app. cbn [filter].
  destruct (goes_here ctl g' p sgn t' {| pe_gnss := g; pe_type := t; pe_obs := x; pe_can_create := ok |}) eqn:GH.
  - unfold goes_here in GH. cbn [pe_gnss pe_type pe_obs] in GH.
    destruct (gnss_eq_dec g g') as [->|]; [|discriminate GH]. destruct (type_eq_dec t t') as [->|]; [|discriminate GH].
    cbn [andb] in GH. destruct (header_ok ctl g' p sgn t' C K') as (h1 & h2 & HH & HD1 & HD2).
    rewrite (P2 p sgn h1 h2 K' HH). rewrite (buffer_get ctl g' t' x p sgn OK (code_length g' sgn K')), GH.
    rewrite drop_until_snoc. cbn [pe_can_create].
    pose proof (row_ok p (row_time ctl g' x) (columns ctl g' (ob_obs x) p sgn) (columns_nonempty ctl g' (ob_obs x) p sgn)) as RW.
    fold (row_text p (row_time ctl g' x, columns ctl g' (ob_obs x) p sgn)) in RW.
    destruct (drop_until _ (filter _ hist)) as [|e0 rest] eqn:D.
    + rewrite G. cbn [upd]. destruct (ok (obs_file g' p sgn t')); [|reflexivity].
      eexists. split; [reflexivity|]. exists h1, h2. eexists [_]. cbn [concat]. rewrite app_nil_r.
      split; [now rewrite <- app_assoc|]. split; [exact HD1|]. split; [exact HD2|].
      constructor; [exact RW|constructor].
    + destruct G as (c & Hc & k1 & k2 & rows & EC & HK1 & HK2 & FR). rewrite Hc. cbn [upd app].
      eexists. split; [reflexivity|]. exists k1, k2, (rows ++ [row_text p (row_time ctl g' x, columns ctl g' (ob_obs x) p sgn)]).
      rewrite concat_app. cbn [concat]. rewrite app_nil_r. split; [rewrite EC, <- !app_assoc; reflexivity|].
      split; [exact HK1|]. split; [exact HK2|].
      change (e0 :: rest ++ ?z) with ((e0 :: rest) ++ z). apply Forall2_app; [exact FR|]. constructor; [exact RW|constructor].
  - rewrite app_nil_r. assert (E' : sget (mg_files st') (obs_path g' p sgn t') = sget (mg_files st) (obs_path g' p sgn t')).
    { destruct (gnss_eq_dec g g') as [->|NG]; [|apply P1; [exact K'|left; congruence]].
      destruct (type_eq_dec t t') as [->|NT]; [|apply P1; [exact K'|right; congruence]].
      unfold goes_here in GH. cbn [pe_gnss pe_type pe_obs] in GH.
      destruct (gnss_eq_dec g' g') as [_|]; [|congruence]. destruct (type_eq_dec t' t') as [_|]; [|congruence]. cbn [andb] in GH.
      destruct (header_ok ctl g' p sgn t' C K') as (h1 & h2 & HH & _).
      rewrite (P2 p sgn h1 h2 K' HH). rewrite (buffer_get ctl g' t' x p sgn OK (code_length g' sgn K')), GH. reflexivity. }
    rewrite E'. exact G.
Qed.

Lemma inv_init : inv margo_init.
Proof. split; [intros; cbn; split; intros; congruence|]. intros path N. cbn in N. congruence. Qed.

Lemma print_all_ok ctl : controls_ok ctl -> forall after before st, inv st -> good ctl before st -> Forall event_ok after ->
  exists st', print_all ctl st after = (st', Ok tt) /\ inv st' /\ good ctl (before ++ after) st'.
Proof.
  intros C. induction after as [|e r IH]; intros before st I G F.
  - exists st. rewrite app_nil_r. auto.
  - inversion F; subst. destruct (print_step ctl before st e C I G ltac:(assumption)) as (st1 & E & I1 & G1).
    cbn [print_all]. rewrite E. destruct (IH (before ++ [e]) st1 I1 G1 ltac:(assumption)) as (st' & E' & I' & G').
    exists st'. rewrite <- app_assoc in G'. auto.
Qed.
