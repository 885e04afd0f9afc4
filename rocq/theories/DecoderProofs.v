(** * DecoderProofs: proofs about the dispatching of messages to sub-decoders (C12). *)
From Verif Require Import PyBase PyDict PyVal BitsModel BitsSpec BitsProofs FramerModel CleanProofs
  MsmModel PropertiesMsm EphModel EphTheorems BaseModel BaseProofs DecoderModel DecoderSpec.
Local Open Scope string_scope.
Local Open Scope list_scope.
Local Open Scope Z_scope.

(** ** Message number *)

Lemma mnum_cases msg : bytes_ok msg ->
  (exists n, has_number msg n /\ mnum msg = Ok (Some n)) \/
  ((forall n, ~ has_number msg n) /\ mnum msg = Ok None).
Proof.
  intros B. unfold mnum.
  assert (L : Z.of_nat (length (bits_of msg)) = 8 * zlen msg).
  { unfold zlen, bits_of. clear. induction msg as [|b r IH]; [reflexivity|].
    cbn [flat_map]. rewrite app_length. cbn [length byte_bits map]. lia. }
  destruct (getbitu_spec msg 24 12 B) as [[(_ & _ & I2) E]|[NI E]]; rewrite E; cbn [catch_bits].
  - left. eexists. split; [|reflexivity]. split; [lia|]. reflexivity.
  - right. split; [|reflexivity]. intros n [H _]. apply NI. unfold field_inside. lia.
Qed.

Lemma has_number_fun msg n m : has_number msg n -> has_number msg m -> n = m.
Proof. intros [_ ->] [_ ->]. reflexivity. Qed.

(** ** Sub-decoders in force *)

Lemma acceptable_dec io : acceptable io \/ ~ acceptable io.
Proof.
  unfold acceptable. destruct (sd_decode io), (sd_actual io).
  - right. intros [_ H]. now apply H.
  - left. split; congruence.
  - right. intros [H _]. now apply H.
  - right. intros [H _]. now apply H.
Qed.

Lemma register_yes st io : acceptable io ->
  register_decoder st io = ({| d_decoders := sset (d_decoders st) (sd_subset io) io;
    d_attempts := d_attempts st; d_succeeded := d_succeeded st |}, true).
Proof.
  intros [H1 H2]. unfold register_decoder. destruct (sd_decode io) as [f0|]; [|congruence].
  destruct (sd_actual io) as [|x r]; [congruence|].
  replace (zlen (x :: r) =? 0) with false; [reflexivity|].
  symmetry. apply Z.eqb_neq. unfold zlen. cbn [length]. lia.
Qed.
Lemma register_no st io : ~ acceptable io -> register_decoder st io = (st, false).
Proof.
  intros H. unfold register_decoder. destruct (sd_decode io) as [f0|] eqn:E1; [|reflexivity].
  destruct (sd_actual io) as [|x r] eqn:E2; [reflexivity|]. destruct H. unfold acceptable. rewrite E1, E2.
  split; congruence.
Qed.

Lemma in_force_decode h msg io : in_force (h ++ [Decode msg]) io <-> in_force h io.
Proof.
  split.
  - intros (b & a & E & A & N). destruct (exists_last (l := Register io :: a)) as (a' & x & Ea); [congruence|].
    rewrite Ea, app_assoc in E. apply app_inj_tail in E. destruct E as [E <-].
    destruct a' as [|y a']; [cbn in Ea; congruence|]. cbn in Ea. injection Ea as <- Ea. subst a.
    exists b, a'. split; [exact E|]. split; [exact A|]. intros io' I'. apply N. apply in_or_app. now left.
  - intros (b & a & -> & A & N). exists b, (a ++ [Decode msg]). rewrite <- app_assoc. split; [reflexivity|].
    split; [exact A|]. intros io' I' A'. apply in_app_or in I'. destruct I' as [I'|[I'|[]]]; [now apply N|discriminate].
Qed.

Lemma in_force_register h io io' :
  in_force (h ++ [Register io]) io' <->
  (acceptable io /\ io' = io) \/
  (in_force h io' /\ (acceptable io -> sd_subset io' <> sd_subset io)).
Proof.
  split.
  - intros (b & a & E & A & N). destruct (exists_last (l := Register io' :: a)) as (a' & x & Ea); [congruence|].
    rewrite Ea, app_assoc in E. apply app_inj_tail in E. destruct E as [E <-].
    destruct a' as [|y a'].
    + cbn in Ea. injection Ea as -> ->. left. now split.
    + cbn in Ea. injection Ea as <- Ea. subst a. right. split.
      * exists b, a'. split; [exact E|]. split; [exact A|]. intros io2 I'. apply N. apply in_or_app. now left.
      * intros Ai X. apply (N io); [apply in_or_app; right; now left|exact Ai|now symmetry].
  - intros [[A ->]|[(b & a & -> & A & N) D]].
    + exists h, []. split; [reflexivity|]. split; [exact A|]. intros ? [].
    + exists b, (a ++ [Register io]). rewrite <- app_assoc. split; [reflexivity|]. split; [exact A|].
      intros io2 I' A'. apply in_app_or in I'. destruct I' as [I'|[I'|[]]]; [now apply N|].
      injection I' as ->. intros X. now apply (D A').
Qed.

Lemma after_snoc h e : after (h ++ [e]) = after_event (after h) e.
Proof. unfold after. now rewrite fold_left_app. Qed.

Lemma seqb_spec : forall a b : string, String.eqb a b = true <-> a = b.
Proof. exact String.eqb_eq. Qed.

(** The loop of [decode] leaves the table alone. *)
Lemma decode_table st msg : d_decoders (snd (decode st msg)) = d_decoders st.
Proof.
  unfold decode, decode_body. destruct (mnum msg) as [num|e]; [|destruct e; reflexivity].
  destruct (find _ _) as [dec|]; [|reflexivity].
  destruct (match sd_decode dec with Some f => _ | None => _ end) as [rv|e]; [|destruct e; reflexivity].
  destruct (match num with Some n => _ | None => _ end) as [cls|e]; [|destruct e; reflexivity].
  destruct (isinstance rv cls); reflexivity.
Qed.

(** The table holds exactly the sub-decoders in force, each under its subset. *)
Lemma table_force h : forall s io,
  sget (d_decoders (after h)) s = Some io <-> (in_force h io /\ sd_subset io = s).
Proof.
  induction h as [|e h IH] using rev_ind; intros s io.
  - split; [discriminate|]. intros [(b & a & E & _) _]. destruct b; discriminate.
  - rewrite after_snoc. destruct e as [i|msg]; cbn [after_event].
    + rewrite in_force_register. destruct (acceptable_dec i) as [A|A].
      * rewrite register_yes by exact A. cbn [fst d_decoders].
        destruct (String.eqb_spec s (sd_subset i)) as [->|N].
        -- unfold sget, sset. rewrite dget_dset_same by exact seqb_spec. split.
           ++ intros [= <-]. split; [left; now split|reflexivity].
           ++ intros [[[_ ->]|[F D]] X]; [reflexivity|]. now apply D in A.
        -- unfold sget, sset. rewrite dget_dset_other; [|exact seqb_spec|congruence]. fold (@sget subdec). rewrite IH. split.
           ++ intros [F X]. split; [right; split; [exact F|congruence]|exact X].
           ++ intros [[[_ ->]|[F D]] X]; [congruence|]. now split.
      * rewrite register_no by exact A. cbn [fst]. rewrite IH. tauto.
    + rewrite decode_table, in_force_decode. apply IH.
Qed.

Lemma table_nodup h : NoDup (map fst (d_decoders (after h))).
Proof.
  induction h as [|e h IH] using rev_ind; [constructor|]. rewrite after_snoc.
  destruct e as [i|msg]; cbn [after_event].
  - destruct (acceptable_dec i) as [A|A]; [rewrite register_yes by exact A|now rewrite register_no by exact A].
    cbn [fst d_decoders]. unfold sset. revert IH. generalize (d_decoders (after h)) as d. clear. intros d.
    induction d as [|[k v] r IH]; cbn; intros N; [constructor; [now intros []|constructor]|].
    inversion N; subst. destruct (String.eqb_spec (sd_subset i) k) as [D|D]; cbn; [exact N|].
    constructor; [|now apply IH]. intros X. apply H1. clear - X D.
    induction r as [|[k' v'] r IH]; cbn in *; [destruct X as [X|[]]; congruence|].
    destruct (String.eqb_spec (sd_subset i) k'); cbn in X; [exact X|]. destruct X as [X|X]; [now left|right; auto].
  - now rewrite decode_table.
Qed.

Lemma in_table h io : In io (map snd (d_decoders (after h))) <-> in_force h io.
Proof.
  split.
  - intros H. apply in_map_iff in H. destruct H as ([s i] & <- & I). cbn.
    assert (G : sget (d_decoders (after h)) s = Some i).
    { revert I. generalize (table_nodup h). generalize (d_decoders (after h)) as d. clear. intros d.
      induction d as [|[k v] r IH]; cbn; [intros _ []|]; intros N [E|I]; inversion N; subst.
      - injection E as -> ->. unfold sget. cbn. now rewrite String.eqb_refl.
      - unfold sget. cbn. destruct (String.eqb_spec s k) as [->|D]; [|now apply IH].
        destruct H1. now apply (in_map fst) in I. }
    now apply table_force in G.
  - intros F. assert (G : sget (d_decoders (after h)) (sd_subset io) = Some io) by (apply table_force; now split).
    apply (dget_In _ seqb_spec) in G. now apply (in_map snd) in G.
Qed.

(** ** One call *)

Lemma accepts_claims n io : accepts (Some n) io = true <-> exists cls, claims io n cls.
Proof.
  unfold accepts, claims. rewrite andb_true_iff, !existsb_exists. split.
  - intros [(x & I1 & E1) (y & I2 & E2)]. apply Z.eqb_eq in E1, E2. subst x y.
    unfold zget. destruct (dget Z.eqb (sd_spec io) n) as [c|] eqn:G; [eauto|].
    apply (dget_None _ Z.eqb_eq) in G. contradiction.
  - intros (cls & G & I). split; [|exists n; split; [exact I|apply Z.eqb_refl]].
    exists n. split; [|apply Z.eqb_refl]. apply (dget_In _ Z.eqb_eq) in G. now apply (in_map fst) in G.
Qed.

(** Everything that one call of [decode] does, in one statement. *)
Lemma decode_step h msg : bytes_ok msg ->
  (exists io n cls f,
     in_force h io /\ has_number msg n /\ claims io n cls /\ sd_decode io = Some f /\
     d_attempts (snd (decode (after h) msg)) = d_attempts (after h) + 1 /\
     ((exists o, f msg = Ok (Some o) /\ isinstance (Some o) cls = true /\
         answer h msg = Ok (Some o) /\
         d_succeeded (snd (decode (after h) msg)) = d_succeeded (after h) + 1) \/
      ((forall o, f msg = Ok (Some o) -> isinstance (Some o) cls = false) /\
       (answer h msg = Ok None \/ f msg = Err EKeyboard /\ answer h msg = Err EKeyboard) /\
       d_succeeded (snd (decode (after h) msg)) = d_succeeded (after h))))
  \/ (~ served h msg /\ decode (after h) msg = (Ok None, after h)).
Proof.
  intros B. unfold answer. destruct (mnum_cases msg B) as [(n & N & E)|[N E]].
  - destruct (find (accepts (Some n)) (map snd (d_decoders (after h)))) as [dec|] eqn:F.
    + left. pose proof (find_some _ _ F) as [I A]. apply in_table in I. apply accepts_claims in A.
      destruct A as (cls & C). destruct (sd_decode dec) as [f|] eqn:Ef.
      2:{ destruct I as (? & ? & _ & [X _] & _). congruence. }
      exists dec, n, cls, f. do 4 (split; [assumption|]).
      unfold decode, decode_body. rewrite E, F. cbv zeta. rewrite Ef.
      assert (Ez : zindex (sd_spec dec) n = Ok cls).
      { destruct C as [C _]. unfold zindex, dindex. unfold zget in C. now rewrite C. }
      rewrite Ez. destruct (f msg) as [rv|e].
      * destruct rv as [o|].
        -- destruct (isinstance (Some o) cls) eqn:Ei; cbn [negb snd fst d_attempts d_succeeded is_exception].
           ++ split; [reflexivity|]. left. eauto.
           ++ split; [reflexivity|]. right. split; [congruence|]. split; [now left|reflexivity].
        -- cbn. split; [reflexivity|]. right. split; [congruence|]. split; [now left|reflexivity].
      * destruct e; cbn; (split; [reflexivity|]); right; (split; [congruence|]); (split; [|reflexivity]); auto.
    + right. split.
      * intros (io & m & cls & I & Nm & C). rewrite <- (has_number_fun _ _ _ N Nm) in C.
        apply in_table in I. pose proof (find_none _ _ F _ I) as X.
        assert (Y : accepts (Some n) io = true) by (apply accepts_claims; eauto). congruence.
      * unfold decode, decode_body. rewrite E, F. reflexivity.
  - right. split.
    + intros (io & m & cls & _ & Nm & _). now apply N in Nm.
    + unfold decode, decode_body. rewrite E.
      assert (X : forall l, find (accepts None) l = None) by (induction l; cbn; auto). now rewrite X.
Qed.

(** ** Classes of the objects of the base station sub-decoder *)

Definition yields {A} (P : A -> Prop) (r : res A) : Prop := forall a, r = Ok a -> P a.
Lemma yields_bind {A B} (Q : A -> Prop) (P : B -> Prop) (r : res A) f :
  yields Q r -> (forall a, Q a -> yields P (f a)) -> yields P (bind r f).
Proof. intros H1 H2 b E. destruct r as [a|e]; [|discriminate]. exact (H2 a (H1 a eq_refl) b E). Qed.
Lemma yields_any {A B} (P : B -> Prop) (r : res A) f :
  (forall a, yields P (f a)) -> yields P (bind r f).
Proof. intros H. apply (yields_bind (fun _ => True)); [easy|auto]. Qed.
Lemma yields_ok {A} (P : A -> Prop) a : P a -> yields P (Ok a).
Proof. intros H b [= <-]. exact H. Qed.
Lemma yields_err {A} (P : A -> Prop) e : yields P (Err e).
Proof. intros b. discriminate. Qed.
Lemma yields_for_each {A S} (P : S -> Prop) (l : list A) s f :
  P s -> (forall s a, P s -> yields P (f s a)) -> yields P (for_each l s f).
Proof.
  revert s. induction l as [|a r IH]; intros s Hs H; cbn [for_each]; [now apply yields_ok|].
  apply (yields_bind P); [now apply H|]. intros s' Hs'. now apply IH.
Qed.

Definition is_class c (o : pyobj) : Prop := po_class o = c.
Definition is_class2 {T} c (x : pyobj * T) : Prop := po_class (fst x) = c.
Definition is_class3 {T U} c (x : pyobj * T * U) : Prop := po_class (fst (fst x)) = c.

Lemma yc_run_steps buf steps st c : po_class (fst st) = c -> yields (is_class2 c) (run_steps buf steps st).
Proof.
  intros H. unfold run_steps. apply yields_for_each; [exact H|]. intros [o off] a Ho.
  destruct a. apply yields_any. intros v. apply yields_ok. exact Ho.
Qed.
Lemma yc_counted buf a b o off c : po_class o = c -> yields (is_class3 c) (read_counted buf a b o off).
Proof.
  intros H. unfold read_counted. apply yields_any. intros n. apply yields_any. intros [s off']. apply yields_ok. exact H.
Qed.
Lemma yc_flag a o c : po_class o = c -> yields (is_class c) (set_flag a o).
Proof. intros H. unfold set_flag. apply yields_any. intros. apply yields_ok. exact H. Qed.
Lemma yc_times a m k o c : po_class o = c -> yields (is_class c) (set_times a m k o).
Proof. intros H. unfold set_times. do 2 (apply yields_any; intros). apply yields_ok. exact H. Qed.
Lemma yc_text a o c : po_class o = c -> yields (is_class c) (set_text a o).
Proof. intros H. unfold set_text. do 2 (apply yields_any; intros). apply yields_ok. exact H. Qed.
Lemma yc_copy o c : po_class o = c -> yields (is_class c) (base_copy o).
Proof.
  intros <-. unfold base_copy. apply yields_for_each; [reflexivity|]. intros s a Hs. apply yields_any.
  intros. apply yields_ok. exact Hs.
Qed.

Ltac yc := repeat match goal with
  | |- yields _ (bind (set_flag _ _) _) => eapply yields_bind; [apply yc_flag; eassumption|unfold is_class; intros]
  | |- yields _ (bind (set_times _ _ _ _) _) => eapply yields_bind; [apply yc_times; eassumption|unfold is_class; intros]
  | |- yields _ (bind (set_text _ _) _) => eapply yields_bind; [apply yc_text; eassumption|unfold is_class; intros]
  | |- yields _ (bind (base_copy _) _) => eapply yields_bind; [apply yc_copy; eassumption|unfold is_class; intros]
  | |- yields _ (bind (run_steps _ _ _) _) => eapply yields_bind; [apply yc_run_steps; cbn [fst po_class setattr new_base]; reflexivity
       |unfold is_class2; intros [? ?] ?; cbn [fst] in *]
  | |- yields _ (bind (read_counted _ _ _ _ _) _) => eapply yields_bind; [apply yc_counted; first [eassumption|reflexivity]
       |unfold is_class3; intros [[? ?] ?] ?; cbn [fst] in *]
  | |- yields _ (set_times _ _ _ _) => apply yc_times; assumption
  | |- yields _ (set_text _ _) => apply yc_text; assumption
  | |- yields _ (if ?b then _ else _) => destruct b
  | |- yields _ (bind _ _) => apply yields_any; intros
  | |- yields _ (Ok _) => apply yields_ok; unfold is_class; cbn [po_class setattr] in *; try assumption; try congruence
  | |- yields _ (Err _) => apply yields_err
  | |- yields _ (let _ := _ in _) => cbv zeta
  end.

Definition base_class (n : Z) : string :=
  if n =? 1005 then "BaseRP" else if n =? 1006 then "BaseRPH" else if n =? 1007 then "BaseAD"
  else if n =? 1008 then "BaseADSN" else if n =? 1033 then "BaseADSNRC" else if n =? 1013 then "BaseSP"
  else if n =? 1029 then "BaseTS" else "BaseGLBS".

Lemma yields_num {B} buf n (P : B -> Prop) (f : Z -> res B) : getbitu buf 24 12 = Ok n ->
  yields P (f n) -> yields P (bind (getbitu buf 24 12) f).
Proof. intros -> H. exact H. Qed.

Lemma class_10056 buf n : getbitu buf 24 12 = Ok n -> n = 1005 \/ n = 1006 ->
  yields (is_class (base_class n)) (decode10056 buf).
Proof.
  intros E N. unfold decode10056. cbv zeta. apply (yields_num _ _ _ _ E).
  destruct N; subst n; (eapply yields_bind;
    [apply yc_run_steps; cbn [fst po_class setattr new_base]; reflexivity|];
    intros [o off] Ho; unfold is_class2 in Ho; cbn [fst] in Ho; cbn [Z.eqb Pos.eqb String.eqb Ascii.eqb Bool.eqb] in *;
    yc).
Qed.

Lemma class_10078 buf n : getbitu buf 24 12 = Ok n -> n = 1007 \/ n = 1008 \/ n = 1033 ->
  yields (is_class (base_class n)) (decode10078_1033 buf).
Proof.
  intros E N. unfold decode10078_1033. cbv zeta. apply (yields_num _ _ _ _ E).
  destruct N as [N|[N|N]]; subst n; apply yields_any; intros ?;
    (eapply yields_bind; [apply yc_counted; reflexivity|]); unfold is_class3; intros [[? ?] ?] ?; cbn [fst] in *; yc.
Qed.

Lemma class_bare buf n : getbitu buf 24 12 = Ok n -> yields (is_class (base_class n)) (base_decode_bare buf).
Proof.
  intros E. unfold base_decode_bare, base_get_msg_num. apply (yields_num _ _ _ _ E).
  destruct (Z.eqb_spec n 1005) as [->|?]; [apply class_10056; auto|].
  destruct (Z.eqb_spec n 1006) as [->|?]; [apply class_10056; auto|].
  destruct (Z.eqb_spec n 1007) as [->|?]; [apply class_10078; auto|].
  destruct (Z.eqb_spec n 1008) as [->|?]; [apply class_10078; auto|].
  destruct (Z.eqb_spec n 1033) as [->|?]; [apply class_10078; auto|].
  destruct (Z.eqb_spec n 1013) as [->|?]; [|destruct (Z.eqb_spec n 1029) as [->|?];
    [|destruct (Z.eqb_spec n 1230) as [->|?]; [|apply yields_err]]].
  - unfold decode1013. yc. destruct a1 as [sh off]. yc.
  - unfold decode1029. yc.
  - unfold decode1230. yc. destruct a0 as [[[? ?] ?] ?]. yc.
Qed.

Lemma class_scale o : yields (is_class (po_class o)) (base_scale o).
Proof.
  assert (R : po_class o = po_class o) by reflexivity. unfold base_scale. cbv zeta.
  destruct (_ || _); [unfold scale10056; yc|].
  destruct (_ || _); [unfold scale10078_1033; cbv zeta; yc|].
  destruct (String.eqb _ _).
  { unfold scale1013. apply yields_any. intros v. destruct v; try apply yields_err. yc. }
  destruct (String.eqb _ _); [unfold scale1029; yc|].
  destruct (String.eqb _ _); [unfold scale1230; yc|apply yields_err].
  destruct a0; try apply yields_err. destruct a1; try apply yields_err. yc.
Qed.

Lemma class_base bare buf n o : getbitu buf 24 12 = Ok n -> subdecoder_base bare buf = Ok (Some o) ->
  po_class o = base_class n.
Proof.
  intros E H. apply sub_base_inv in H. unfold base_decode in H.
  pose proof (class_bare buf n E) as C.
  destruct (base_decode_bare buf) as [b|e]; [|discriminate]. cbn [bind] in H. specialize (C b eq_refl).
  unfold is_class in C. destruct bare; [congruence|]. apply class_scale in H. unfold is_class in H. congruence.
Qed.

(** ** The standard sub-decoders *)

Definition standard (bare : bool) (io : subdec) : Prop :=
  In io [sub_msm4567 bare; sub_msm123 bare; sub_eph bare; sub_base bare].

Lemma std_total bare io msg n : standard bare io -> getbitu msg 24 12 = Ok n ->
  exists f r, sd_decode io = Some f /\ f msg = Ok r.
Proof.
  intros [<-|[<-|[<-|[<-|[]]]]] E; cbn [sd_decode sub_msm4567 sub_msm123 sub_eph sub_base].
  - destruct (C14_never_raises bare msg) as [r Hr]. eexists _, _. split; [reflexivity|].
    cbv beta. unfold wrap_msm. rewrite Hr. reflexivity.
  - destruct (C14_never_raises bare msg) as [r Hr]. eexists _, _. split; [reflexivity|].
    cbv beta. unfold wrap_msm. rewrite Hr. reflexivity.
  - destruct (eph_never_raises bare msg) as [r Hr]. eexists _, _. split; [reflexivity|].
    cbv beta. unfold wrap_py. rewrite Hr. reflexivity.
  - destruct (sub_base_cases bare msg n E) as [[o Ho]|Ho]; (eexists _, _; split; [reflexivity|]);
      cbv beta; unfold wrap_py; rewrite Ho; reflexivity.
Qed.

Lemma zget_in {V} (d : list (Z * V)) n v : zget d n = Some v -> In (n, v) d.
Proof. apply (dget_In _ Z.eqb_eq). Qed.

Lemma std_announced bare io n cls : standard bare io -> zget (sd_spec io) n = Some cls ->
  announced bare n = Some cls.
Proof.
  intros S G. apply zget_in in G.
  assert (T : forallb (fun io => forallb (fun '(n, c) =>
            match announced bare n with Some c' => String.eqb c' c | None => false end) (sd_spec io))
          [sub_msm4567 bare; sub_msm123 bare; sub_eph bare; sub_base bare] = true).
  { destruct bare; vm_compute; reflexivity. }
  rewrite forallb_forall in T. specialize (T _ S). rewrite forallb_forall in T. specialize (T _ G).
  cbn beta iota in T. destruct (announced bare n); [|discriminate]. apply String.eqb_eq in T. now subst.
Qed.

Definition all_numbers : list Z := map fst (msm47_spec false) ++ map fst (msm13_spec false) ++ map fst eph_spec ++ map fst base_spec.

Lemma announced_in bare n cls : announced bare n = Some cls -> In n all_numbers.
Proof.
  intros H. assert (M : is_msm n = true \/ In n (map fst eph_spec ++ map fst base_spec)).
  { unfold announced in H. destruct (is_msm n); [now left|right].
    repeat match type of H with (if ?a =? ?b then _ else _) = _ =>
      destruct (Z.eqb_spec a b); [subst; vm_compute; tauto|] end. discriminate. }
  destruct M as [M|M]; [|unfold all_numbers; apply in_or_app; right; apply in_or_app; now right].
  unfold is_msm in M.
  assert (T : forallb (fun n => implb (is_msm n) (existsb (Z.eqb n) all_numbers)) (zrange 1071 1138) = true)
    by (vm_compute; reflexivity).
  assert (I : In n (zrange 1071 1138)).
  { apply zrange_In. lia. }
  rewrite forallb_forall in T. specialize (T n I). unfold is_msm in T. rewrite M in T. cbn [implb] in T.
  apply existsb_exists in T. destruct T as (x & Ix & Ex). apply Z.eqb_eq in Ex. now subst.
Qed.

Lemma announced_std bare n cls : announced bare n = Some cls ->
  exists io, standard bare io /\ claims io n cls.
Proof.
  intros H. pose proof (announced_in _ _ _ H) as I.
  assert (T : forallb (fun n => match announced bare n with None => true | Some cls =>
      existsb (fun io => match zget (sd_spec io) n with Some c => String.eqb c cls | None => false end &&
                 existsb (Z.eqb n) (sd_actual io))
        [sub_msm4567 bare; sub_msm123 bare; sub_eph bare; sub_base bare] end) all_numbers = true).
  { destruct bare; vm_compute; reflexivity. }
  rewrite forallb_forall in T. specialize (T n I). rewrite H in T. apply existsb_exists in T.
  destruct T as (io & S & T). apply andb_prop in T. destruct T as [T1 T2]. exists io. split; [exact S|]. split.
  - destruct (zget (sd_spec io) n); [|discriminate]. apply String.eqb_eq in T1. now subst.
  - apply existsb_exists in T2. destruct T2 as (x & Ix & Ex). apply Z.eqb_eq in Ex. now subst.
Qed.

Lemma isinstance_super o cls : isinstance (Some o) cls = true ->
  class_of o = cls \/ (cls = "BaseRP" /\ class_of o = "BaseRPH") \/
  (cls = "BaseAD" /\ (class_of o = "BaseADSN" \/ class_of o = "BaseADSNRC")) \/
  (cls = "BaseADSN" /\ class_of o = "BaseADSNRC").
Proof.
  unfold isinstance, superclasses.
  destruct (String.eqb_spec (class_of o) "BaseRPH") as [->|];
  [|destruct (String.eqb_spec (class_of o) "BaseADSN") as [->|];
  [|destruct (String.eqb_spec (class_of o) "BaseADSNRC") as [->|]]]; cbn [existsb];
  rewrite ?orb_true_iff, ?orb_false_r; rewrite ?String.eqb_eq; intuition congruence.
Qed.

Lemma std_class bare io msg n cls f o : standard bare io -> getbitu msg 24 12 = Ok n ->
  claims io n cls -> sd_decode io = Some f -> f msg = Ok (Some o) -> isinstance (Some o) cls = true ->
  class_of o = cls.
Proof.
  intros S E [G A] F R I. apply isinstance_super in I. destruct I as [I|I]; [exact I|].
  assert (Bo : In cls ["BaseRP"; "BaseAD"; "BaseADSN"]) by (cbn; intuition).
  apply zget_in in G.
  assert (io = sub_base bare) as ->.
  { destruct S as [<-|[<-|[<-|[<-|[]]]]]; [exfalso..|reflexivity].
    - apply in_map_iff in G. destruct G as (m & X & _). injection X as _ X. destruct bare; subst cls; cbn in Bo; intuition discriminate.
    - apply in_map_iff in G. destruct G as (m & X & _). injection X as _ X. destruct bare; subst cls; cbn in Bo; intuition discriminate.
    - cbn in G. intuition (congruence || (inversion H; subst; discriminate)). }
  cbn [sd_decode sub_base] in F. injection F as <-. unfold wrap_py in R.
  destruct (subdecoder_base bare msg) as [[p|]|] eqn:Ep; try discriminate. cbn in R. injection R as <-.
  pose proof (class_base _ _ _ _ E Ep) as C. cbn [class_of] in *. rewrite C.
  cbn in G. repeat destruct G as [G|G]; try contradiction; inversion G; subst; reflexivity.
Qed.

Lemma number_getbitu msg n : bytes_ok msg -> has_number msg n -> getbitu msg 24 12 = Ok n.
Proof.
  intros B [L ->]. assert (Z.of_nat (length (bits_of msg)) = 8 * zlen msg).
  { unfold zlen, bits_of. clear. induction msg as [|b r IH]; [reflexivity|].
    cbn [flat_map]. rewrite app_length. cbn [length byte_bits map]. lia. }
  rewrite getbitu_ok; [reflexivity|exact B|unfold field_inside; lia].
Qed.
