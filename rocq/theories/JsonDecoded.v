(** * JsonDecoded: every object the decoder returns can be shown as JSON. *)
From Coq Require Import ZArith Reals Psatz SpecFloat Lia.
From Flocq Require Import Core BinarySingleNaN.
From Verif Require Import PyBase PyDict PyFloat FloatProofs PyVal PyText PyJson JsonSpec BitsModel BitsSpec BitsProofs
  MessageSpec MsmModel MsmSpec MsmScaleSpec MsmScaleTheorems MsmConverse MsmRange EphModel BaseModel BaseProofs DecoderModel DecoderSpec DecoderProofs PropertiesDecoder
  MsmProofs MsmTheorems MsmConvert MsmRange ReadProofs JsonModel JsonFileSpec EphProofs BaseSchedProofs.
Local Open Scope string_scope.
Local Open Scope list_scope.
Local Open Scope Z_scope.

(** ** Finite floats *)
Definition fin (x : flt) : Prop := is_finite_SF x = true /\ valid_binary fprec femax x = true.
Lemma val_fin x r : is_val x r -> fin x.
Proof. intros (V & F & _). split; assumption. Qed.
Lemma fin_val x : fin x -> is_val x (SF2R radix2 x).
Proof. intros [F V]. repeat split; assumption. Qed.

(** Literals below 2^53. *)
Definition lit_ok (y : flt) : bool :=
  match y with
  | S754_zero _ => true
  | S754_finite _ m e => valid_binary fprec femax y && (Zpos m <? 2 ^ 53) && (e <=? 0)
  | _ => false
  end.
Lemma lit_ok_val y : lit_ok y = true -> exists r, is_val y r /\ (Rabs r < bpow radix2 53)%R.
Proof.
  intros H. destruct y as [s| | |s m e]; try discriminate.
  - exists 0%R. split; [repeat split|]. rewrite Rabs_R0. apply bpow_gt_0.
  - cbn [lit_ok] in H. apply andb_prop in H. destruct H as [H He]. apply andb_prop in H. destruct H as [V Hm].
    exists (SF2R radix2 (S754_finite s m e)). split; [repeat split; exact V|].
    cbn [SF2R]. unfold F2R. cbn [Fnum Fexp].
    rewrite Rabs_mult, <- abs_IZR, (Rabs_pos_eq (bpow radix2 e)) by apply bpow_ge_0.
    assert (A : Z.abs (cond_Zopp s (Z.pos m)) < 2 ^ 53) by (destruct s; cbn [cond_Zopp]; lia).
    apply Rlt_le_trans with (IZR (2 ^ 53) * bpow radix2 e)%R.
    + apply Rmult_lt_compat_r; [apply bpow_gt_0|]. now apply IZR_lt.
    + replace (bpow radix2 53) with (IZR (2 ^ 53) * 1)%R by (cbn; lra).
      apply Rmult_le_compat_l; [cbn; lra|]. change 1%R with (bpow radix2 0). apply bpow_le. lia.
Qed.

Lemma mul_lit z y : Z.abs z < 2 ^ 53 -> lit_ok y = true ->
  exists r, is_val (f_mul (f_of_int z) y) r /\ (Rabs r < bpow radix2 107)%R.
Proof.
  intros Hz Hy. destruct (lit_ok_val y Hy) as (r & V & B).
  pose proof (f_of_int_exact z Hz) as Z0. unfold dyadic in Z0. change (bpow radix2 0) with 1%R in Z0. rewrite Rmult_1_r in Z0.
  assert (P : (Rabs (IZR z * r) < bpow radix2 106)%R).
  { rewrite Rabs_mult, <- abs_IZR. change 106 with (53 + 53). rewrite bpow_plus.
    apply Rmult_le_0_lt_compat; [apply IZR_le; lia|apply Rabs_pos| |exact B].
    change (bpow radix2 53) with (IZR (2 ^ 53)). now apply IZR_lt. }
  destruct (rnd_error _ 106 ltac:(lia) P) as [E1 E2].
  exists (rnd (IZR z * r)). split; [exact (mul_val _ _ _ _ Z0 V E2)|].
  replace (rnd (IZR z * r)) with ((rnd (IZR z * r) - IZR z * r) + IZR z * r)%R by ring.
  eapply Rle_lt_trans; [apply Rabs_triang|].
  change (bpow radix2 107) with (bpow radix2 (1 + 106)). rewrite bpow_plus. change (bpow radix2 1) with 2%R.
  assert (bpow radix2 (106 - 54) <= bpow radix2 106)%R by (apply bpow_le; lia). lra.
Qed.
Lemma mul_fin z y : Z.abs z < 2 ^ 53 -> lit_ok y = true -> fin (f_mul (f_of_int z) y).
Proof. intros A B. destruct (mul_lit z y A B) as (r & V & _). eapply val_fin, V. Qed.

(** ** Bounded values of bare objects (no None; keys of dictionaries occur once) *)
Fixpoint bounded (v : pyval) : Prop :=
  match v with
  | VNone => False
  | VInt z => Z.abs z < 2 ^ 53
  | VList l | VTuple l => fold_right (fun x p => bounded x /\ p) True l
  | VDict d => fold_right (fun kv p => match kv with (_, x) => bounded x /\ p end) True d /\ NoDup (map fst d)
  | _ => True
  end.
Definition good (v : pyval) : Prop := clean v /\ bounded v.
(** The same without the bound. *)
Fixpoint solid (v : pyval) : Prop :=
  match v with
  | VNone => False
  | VList l | VTuple l => fold_right (fun x p => solid x /\ p) True l
  | VDict d => fold_right (fun kv p => match kv with (_, x) => solid x /\ p end) True d /\ NoDup (map fst d)
  | _ => True
  end.
Definition fair (v : pyval) : Prop := clean v /\ solid v.
Fixpoint bounded_solid (v : pyval) : bounded v -> solid v.
Proof.
  destruct v as [|b|z|f|s|l|l|d]; cbn [bounded solid]; try tauto.
  1,2: induction l as [|x l IH]; cbn [fold_right]; [tauto|]; intros [H1 H2]; split; [now apply bounded_solid|now apply IH].
  intros [H N]. split; [|exact N]. clear N. induction d as [|[k x] d IH]; cbn [fold_right] in *; [tauto|].
  destruct H as [H1 H2]. split; [now apply bounded_solid|now apply IH].
Qed.
Lemma good_fair v : good v -> fair v.
Proof. intros [A B]. split; [exact A|now apply bounded_solid]. Qed.

Lemma good_dict d : good (VDict d) <-> Forall (fun kv => key_ok (fst kv) /\ good (snd kv)) d /\ NoDup (map fst d).
Proof.
  unfold good. cbn [clean bounded]. rewrite <- and_assoc. apply and_iff_compat_r.
  induction d as [|[k x] d IH]; cbn [fold_right]; [split; [constructor|now split]|]. rewrite Forall_cons_iff, <- IH. cbn [fst snd].
  unfold good. tauto.
Qed.

Lemma good_empty : good (VDict []).
Proof. apply good_dict. split; constructor. Qed.
Lemma map_res_good (f : pyval * pyval -> res (pyval * pyval)) d :
  (forall k v, good v -> yields (fun p => fst p = k /\ good (snd p)) (f (k, v))) ->
  good (VDict d) -> yields (fun d' => good (VDict d')) (map_res f d).
Proof.
  intros H G. apply good_dict in G. destruct G as [F N].
  enough (X : yields (fun d' => Forall (fun kv => key_ok (fst kv) /\ good (snd kv)) d' /\ map fst d' = map fst d) (map_res f d)).
  { intros d' E. destruct (X d' E) as [X1 X2]. apply good_dict. split; [exact X1|]. now rewrite X2. }
  clear N. induction F as [|[k v] d [K Gv] F IH]; cbn [map_res]; [apply yields_ok; split; [constructor|reflexivity]|].
  cbn [fst snd] in K, Gv. eapply yields_bind; [apply H; exact Gv|]. intros [k' v'] [Ek Gv']. cbn [fst snd] in Ek, Gv'. subst k'.
  eapply yields_bind; [exact IH|]. intros d' [F' E']. apply yields_ok. split; [constructor; [now split|exact F']|].
  cbn [map fst]. now rewrite E'.
Qed.

Definition flds (cls : string) : list string := match dataclass_fields cls with Some l => l | None => [] end.
Definition inv0 (B : pyval -> Prop) (cls : string) (o : pyobj) : Prop :=
  po_class o = cls /\
  (forall a, In a (flds cls) -> exists v, sget (po_attrs o) a = Some v) /\
  (forall a v, sget (po_attrs o) a = Some v -> B v).
Definition inv (B : pyval -> Prop) (cls : string) (n : Z) (o : pyobj) : Prop :=
  inv0 B cls o /\ sget (po_attrs o) "msgNum" = Some (VInt n).

Lemma sget_set_same {V} (d : list (string * V)) k v : sget (sset d k v) k = Some v.
Proof. apply (dget_dset_same _ string_eqb_spec). Qed.
Lemma sget_set_other {V} (d : list (string * V)) k k' v : k <> k' -> sget (sset d k v) k' = sget d k'.
Proof. intros H. now apply (dget_dset_other _ string_eqb_spec). Qed.

Lemma inv0_set B cls o a v : inv0 B cls o -> B v -> inv0 B cls (setattr o a v).
Proof.
  intros (C & F & A) Hv. split; [exact C|]. split; cbn [setattr po_attrs].
  - intros b I. destruct (string_dec a b) as [<-|N]; [rewrite sget_set_same; eauto|].
    rewrite sget_set_other by exact N. now apply F.
  - intros b w G. destruct (string_dec a b) as [<-|N].
    + rewrite sget_set_same in G. now injection G as <-.
    + rewrite sget_set_other in G by exact N. exact (A _ _ G).
Qed.
Lemma inv_set B cls n o a v : inv B cls n o -> B v -> a <> "msgNum" -> inv B cls n (setattr o a v).
Proof.
  intros [I N] Hv Ha. split; [now apply inv0_set|]. cbn [setattr po_attrs]. now rewrite sget_set_other.
Qed.
Lemma inv_num B cls n o : inv0 B cls o -> B (VInt n) -> inv B cls n (setattr o "msgNum" (VInt n)).
Proof. intros I Hv. split; [now apply inv0_set|]. cbn [setattr po_attrs]. now rewrite sget_set_same. Qed.

Lemma text_ok_ustr s : text_ok (ustr s).
Proof. induction s as [|c s IH]; cbn [ustr]; constructor; [lia|exact IH]. Qed.
Lemma clean_named d : Forall (fun p => clean (snd p)) d -> clean (named d).
Proof.
  unfold named. cbn [clean]. induction 1 as [|[a v] d Hv F IH]; cbn [map fold_right]; [exact Logic.I|].
  split; [split; [apply text_ok_ustr|exact Hv]|exact IH].
Qed.

Lemma inv_asdict B cls n o : inv B cls n o -> (forall v, B v -> clean v) -> dataclass_fields cls <> None ->
  exists v, asdict o = Ok v /\ clean v.
Proof.
  intros [(C & F & A) _] H D. unfold asdict. rewrite C. unfold flds in F.
  destruct (dataclass_fields cls) as [l|]; [|congruence]. clear D C.
  assert (X : exists d, get_fields o l = Ok d /\ Forall (fun p => clean (snd p)) d).
  { induction l as [|a l IH]; cbn [get_fields]; [eauto|].
    destruct (F a) as [v Gv]; [now left|]. destruct IH as (d & E & Fd); [intros b I; apply F; now right|].
    unfold eph_getattr. rewrite Gv. cbn [bind]. rewrite E. cbn [bind]. eexists. split; [reflexivity|].
    constructor; [|exact Fd]. cbn. eauto. }
  destruct X as (d & E & Fd). rewrite E. cbn [bind]. eexists. split; [reflexivity|].
  now apply clean_named.
Qed.

(** ** Reading *)
Definition rd_ok (s : read_step) : bool := (1 <=? st_width s) && (st_width s <=? 52).
Lemma getbitu_range buf p w v : bytes_ok buf -> getbitu buf p w = Ok v -> 0 <= v < 2 ^ w.
Proof.
  intros B H. destruct (getbitu_spec buf p w B) as [[F E]|[F E]]; rewrite E in H; [|discriminate].
  injection H as <-. pose proof (uval_bound (field buf p w)). rewrite field_length in H by exact F. exact H.
Qed.
Lemma pow_le_52 w : 1 <= w <= 52 -> 2 ^ w <= 2 ^ 52.
Proof. intros H. apply Z.pow_le_mono_r; lia. Qed.
Lemma getbitu_good buf p w v : bytes_ok buf -> 1 <= w <= 52 -> getbitu buf p w = Ok v -> good (VInt v).
Proof.
  intros B W H. apply getbitu_range in H; [|exact B]. pose proof (pow_le_52 w W). split; [exact Logic.I|]. cbn [bounded]. lia.
Qed.
Lemma getbits_good buf p w v : bytes_ok buf -> 1 <= w <= 52 -> getbits buf p w = Ok v -> good (VInt v).
Proof.
  intros B W H. destruct (getbitu_spec buf p w B) as [[F E]|[F E]].
  - rewrite getbits_ok in H by assumption. injection H as <-.
    pose proof (sval_range (field buf p w) (field_nonnil _ _ _ F)) as R. rewrite field_length in R by exact F.
    pose proof (pow_le_52 w W). assert (2 ^ (w - 1) <= 2 ^ w) by (apply Z.pow_le_mono_r; lia).
    split; [exact Logic.I|]. cbn [bounded]. lia.
  - rewrite getbits_err in H by exact F. discriminate.
Qed.
Lemma getbitS_good buf p w v : bytes_ok buf -> 1 <= w <= 52 -> getbitS buf p w = Ok v -> good (VInt v).
Proof.
  intros B W H. destruct (getbitu_spec buf p w B) as [[F E]|[F E]].
  - rewrite getbitS_ok in H by assumption. injection H as <-.
    pose proof (smval_range (field buf p w) (field_nonnil _ _ _ F)) as R. rewrite field_length in R by exact F.
    pose proof (pow_le_52 w W). assert (2 ^ (w - 1) <= 2 ^ w) by (apply Z.pow_le_mono_r; lia).
    split; [exact Logic.I|]. cbn [bounded]. lia.
  - destruct (getbitS_err _ _ _ F) as [e X]. rewrite X in H. discriminate.
Qed.
Lemma read_good k buf p w v : bytes_ok buf -> 1 <= w <= 52 -> read_bits k buf p w = Ok v -> good (VInt v).
Proof. destruct k; [apply getbitu_good|apply getbits_good|apply getbitS_good]. Qed.

Section Buf.
Context (buf : list Z) (HB : bytes_ok buf).

Definition inv2 {T} B cls n (x : pyobj * T) : Prop := inv B cls n (fst x).
Definition inv3 {T U} B cls n (x : pyobj * T * U) : Prop := inv B cls n (fst (fst x)).

Lemma steps_inv cls n steps st :
  forallb (fun s => rd_ok s && negb (String.eqb (st_attr s) "msgNum")) steps = true ->
  inv good cls n (fst st) -> yields (inv2 good cls n) (run_steps buf steps st).
Proof.
  intros W I. unfold run_steps.
  revert st I. induction steps as [|s steps IH]; intros st I; cbn [for_each]; [now apply yields_ok|].
  cbn [forallb] in W. apply andb_prop in W. destruct W as [W1 W2]. apply andb_prop in W1. destruct W1 as [W1 W3].
  unfold rd_ok in W1. apply negb_true_iff, String.eqb_neq in W3.
  apply (yields_bind (inv2 good cls n)); [|intros st' I'; apply IH; assumption].
  destruct st as [o off]. intros st' E. destruct (read_bits _ _ _ _) as [v|] eqn:R; [|discriminate].
  cbn [bind] in E. injection E as <-. unfold inv2. cbn [fst] in *. apply inv_set; [exact I| |exact W3].
  eapply read_good; [exact HB| |exact R]. lia.
Qed.

Lemma steps_first cls n o steps : getbitu buf 24 12 = Ok n ->
  forallb (fun s => rd_ok s && negb (String.eqb (st_attr s) "msgNum")) steps = true ->
  inv0 good cls o -> yields (inv2 good cls n) (run_steps buf (step "msgNum" RU 12 12 :: steps) (o, 24)).
Proof.
  intros E W I. unfold run_steps. cbn [for_each st_read st_width st_attr st_adv read_bits]. rewrite E. cbn [bind].
  apply (steps_inv cls n steps (setattr o "msgNum" (VInt n), 24 + 12) W).
  cbn [fst]. apply inv_num; [exact I|]. eapply getbitu_good; [exact HB| |exact E]. lia.
Qed.

(** *** Text *)
Lemma hex_ok v : 0 <= v -> text_ok (py_hex v).
Proof.
  intros H. unfold py_hex. apply Forall_app. split; [apply text_ok_ustr|].
  assert (D : forall d, 0 <= d -> 0 <= hex_digit d) by (intros d Hd; unfold hex_digit; destruct (d <? 10); lia).
  destruct (v <? 16).
  - constructor; [auto|constructor].
  - pose proof (Z.div_pos v 16 H). pose proof (Z.mod_pos_bound v 16). constructor; [apply D; lia|]. constructor; [apply D; lia|constructor].
Qed.
Lemma lstrip_ok s : text_ok s -> text_ok (lstrip s).
Proof. induction 1 as [|c s H F IH]; cbn [lstrip]; [constructor|]. destruct (is_space c); [exact IH|now constructor]. Qed.
Lemma strip_ok s : text_ok s -> text_ok (py_strip s).
Proof.
  intros H. unfold py_strip, rstrip. apply Forall_rev. apply lstrip_ok. apply Forall_rev. now apply lstrip_ok.
Qed.
Lemma read_text_ok n off : yields (fun x => text_ok (fst x)) (read_text buf n off).
Proof.
  unfold read_text. apply (yields_bind (fun x : list Z * Z => text_ok (fst x))).
  - apply yields_for_each; [constructor|]. intros [s o] a H. intros x E.
    destruct (getbitu buf o 8) as [v|] eqn:G; [|discriminate]. cbn [bind] in E. injection E as <-. cbn [fst] in *.
    apply getbitu_range in G; [|exact HB]. apply Forall_app. split; [exact H|].
    assert (X := hex_ok v (proj1 G)). apply (proj2 (Forall_app _ (py_hex v) [32])). split; [exact X|].
    constructor; [lia|constructor].
  - intros [s o] H. apply yields_ok. cbn [fst] in *. now apply strip_ok.
Qed.
Lemma counted_inv cls n o off a b : inv good cls n o -> a <> "msgNum" -> b <> "msgNum" ->
  yields (inv3 good cls n) (read_counted buf a b o off).
Proof.
  intros I A Bn. unfold read_counted. intros x E. destruct (getbitu buf off 8) as [v|] eqn:G; [|discriminate].
  cbn [bind] in E. destruct (read_text buf v (off + 8)) as [[s off']|] eqn:T; [|discriminate]. cbn [bind] in E. injection E as <-.
  apply read_text_ok in T. unfold inv3. cbn [fst] in *. apply inv_set; [|split; [exact T|exact Logic.I]|exact Bn].
  apply inv_set; [exact I| |exact A]. eapply getbitu_good; [exact HB| |exact G]. lia.
Qed.

Lemma text_cons c s : 0 <= c -> text_ok s -> text_ok (c :: s).
Proof. intros; now constructor. Qed.
Lemma utf8_ok l t : utf8_decode l = Ok t -> text_ok t.
Proof.
  revert t. induction l as [l IH] using (well_founded_induction (Wf_nat.well_founded_ltof _ (@length Z))).
  unfold Wf_nat.ltof in IH. intros t E.
  destruct l as [|a r]; [injection E as <-; constructor|]. cbn [utf8_decode] in E.
  destruct (between 0 127 a) eqn:C1.
  { destruct (utf8_decode r) as [s|] eqn:D; [|discriminate]. cbn [bind] in E. apply (f_equal (fun r => match r with Ok x => x | Err _ => t end)) in E; cbv beta iota in E; subst t.
    apply text_cons; [unfold between in C1; lia|]. apply (IH r); [cbn; lia|exact D]. }
  destruct (between 194 223 a) eqn:C2.
  { destruct r as [|b r]; [discriminate|]. destruct (cont b) eqn:Cb; [|discriminate].
    destruct (utf8_decode r) as [s|] eqn:D; [|discriminate]. cbn [bind] in E. apply (f_equal (fun r => match r with Ok x => x | Err _ => t end)) in E; cbv beta iota in E; subst t.
    apply text_cons; [unfold between, cont in *; lia|]. apply (IH r); [cbn; lia|exact D]. }
  destruct (between 224 239 a) eqn:C3.
  { destruct r as [|b r]; [discriminate|]. destruct r as [|c r]; [discriminate|].
    match type of E with (if ?x then _ else _) = _ => destruct x eqn:Cb end; [|discriminate].
    destruct (utf8_decode r) as [s|] eqn:D; [|discriminate]. cbn [bind] in E. apply (f_equal (fun r => match r with Ok x => x | Err _ => t end)) in E; cbv beta iota in E; subst t.
    apply andb_prop in Cb. destruct Cb as [Cb Cc].
    assert (128 <= b) by (unfold between, cont in *; destruct (a =? 224), (a =? 237); lia).
    apply text_cons; [unfold between, cont in *; lia|]. apply (IH r); [cbn; lia|exact D]. }
  destruct (between 240 244 a) eqn:C4; [|discriminate].
  destruct r as [|b r]; [discriminate|]. destruct r as [|c r]; [discriminate|]. destruct r as [|d r]; [discriminate|].
  match type of E with (if ?x then _ else _) = _ => destruct x eqn:Cb end; [|discriminate].
  destruct (utf8_decode r) as [s|] eqn:D; [|discriminate]. cbn [bind] in E. apply (f_equal (fun r => match r with Ok x => x | Err _ => t end)) in E; cbv beta iota in E; subst t.
  apply andb_prop in Cb. destruct Cb as [Cb Cd]. apply andb_prop in Cb. destruct Cb as [Cb Cc].
  assert (128 <= b) by (unfold between, cont in *; destruct (a =? 240), (a =? 244); lia).
  apply text_cons; [unfold between, cont in *; lia|]. apply (IH r); [cbn; lia|exact D].
Qed.

(** *** Statements of the scalers *)
Lemma getattr_inv cls n o a v : inv good cls n o -> getattr o a = Ok v -> good v.
Proof.
  intros [(_ & _ & A) _] G. unfold getattr in G. destruct (sget (po_attrs o) a) as [w|] eqn:E; [|discriminate].
  injection G as <-. exact (A _ _ E).
Qed.
Lemma is_one_good v : good (is_one v).
Proof. destruct v; split; exact Logic.I. Qed.
Lemma times_good v m k : lit_ok (dec_lit m k) = true -> good v -> yields good (times_lit v m k).
Proof.
  intros L G. destruct v; try apply yields_err. apply yields_ok. split; [|exact Logic.I].
  cbn [clean]. apply mul_fin; [apply G|exact L].
Qed.
Lemma flag_inv cls n o a : inv good cls n o -> a <> "msgNum" -> yields (inv good cls n) (set_flag a o).
Proof.
  intros I A. unfold set_flag. apply yields_any. intros v. apply yields_ok. apply inv_set; [exact I|apply is_one_good|exact A].
Qed.
Lemma times_inv cls n o a m k : inv good cls n o -> a <> "msgNum" -> lit_ok (dec_lit m k) = true ->
  yields (inv good cls n) (set_times a m k o).
Proof.
  intros I A L. unfold set_times. apply (yields_bind good); [intros v G; eapply getattr_inv; eassumption|].
  intros v Gv. apply (yields_bind good); [now apply times_good|]. intros w Gw. apply yields_ok. now apply inv_set.
Qed.
Lemma text_inv cls n o a : inv good cls n o -> a <> "msgNum" -> yields (inv good cls n) (set_text a o).
Proof.
  intros I A. unfold set_text. apply (yields_bind good); [intros v G; eapply getattr_inv; eassumption|].
  intros v Gv. apply (yields_bind good); [|intros w Gw; apply yields_ok; now apply inv_set].
  destruct v; try apply yields_err. cbn [text_of]. do 2 (apply yields_any; intros). intros w E.
  destruct (utf8_decode _) as [t|] eqn:U; [|discriminate]. cbn [bind] in E. injection E as <-.
  split; [exact (utf8_ok _ _ U)|exact Logic.I].
Qed.

(** *** New objects *)
Lemma new_base_inv cls : In cls ["BaseRP"; "BaseRPH"; "BaseAD"; "BaseADSN"; "BaseADSNRC"; "BaseSP"; "BaseTS"; "BaseGLBS"] ->
  inv0 good cls (new_base cls).
Proof.
  intros H. split; [reflexivity|]. split.
  - intros a I. cbn [new_base po_attrs].
    assert (E : flds cls = map fst (base_fields cls)).
    { cbn [In] in H. repeat (destruct H as [<-|H]; [reflexivity|]). contradiction. }
    rewrite E in I. destruct (sget (base_fields cls) a) as [v|] eqn:G; [eauto|].
    exfalso. exact (proj1 (dget_None _ string_eqb_spec _ _) G I).
  - intros a v G. cbn [new_base po_attrs] in G. apply (dget_In _ string_eqb_spec) in G.
    assert (F : Forall (fun p => good (snd p)) (base_fields cls)).
    { assert (Gi : good (VInt 0)) by (split; [exact Logic.I|cbn; lia]).
      assert (Gs : good (VStr [])) by (split; [constructor|exact Logic.I]).
      assert (Gd : good (VDict [])) by apply good_empty.
      assert (Gb : good (vdict_s bias_defaults)).
      { apply good_dict. split; [repeat (constructor; [split; [apply text_ok_ustr|exact Gi]|]); constructor|].
        cbn. repeat (constructor; [cbn; intuition discriminate|]). constructor. }
      cbn [In] in H.
      repeat (destruct H as [<-|H]; [cbn [base_fields String.eqb Ascii.eqb Bool.eqb app baserp_fields basead_fields baseadsn_fields];
        repeat (constructor; [assumption|]); constructor|]). contradiction. }
    rewrite Forall_forall in F. exact (F _ G).
Qed.

Ltac nm := discriminate.
Ltac gb H := eapply getbitu_good; [exact HB| |exact H]; lia.

(** *** Bare base station objects *)
Lemma inv_10056 n : getbitu buf 24 12 = Ok n -> n = 1005 \/ n = 1006 ->
  yields (inv good (base_class n) n) (decode10056 buf).
Proof.
  intros E N. unfold decode10056. cbv zeta. apply (yields_num _ _ _ _ E).
  assert (C : (if n =? 1005 then "BaseRP" else "BaseRPH") = base_class n) by (destruct N; subst n; reflexivity).
  rewrite C.
  assert (I : inv good (base_class n) n (setattr (new_base (base_class n)) "msgNum" (VInt n))).
  { apply inv_num; [apply new_base_inv; destruct N; subst n; cbn; tauto|]. gb E. }
  apply (yields_bind (inv2 good (base_class n) n)); [apply steps_inv; [reflexivity|exact I]|].
  intros [o off] Ho. unfold inv2 in Ho. cbn [fst] in Ho.
  destruct (String.eqb (base_class n) "BaseRPH").
  - intros x X. destruct (getbitu buf off 16) as [v|] eqn:G; [|discriminate]. cbn [bind] in X.
    destruct (base_length_check _ _ _); [|discriminate]. cbn [bind] in X. injection X as <-.
    apply inv_set; [exact Ho|gb G|nm].
  - apply yields_any. intros _. now apply yields_ok.
Qed.

Lemma inv_10078 n : getbitu buf 24 12 = Ok n -> n = 1007 \/ n = 1008 \/ n = 1033 ->
  yields (inv good (base_class n) n) (decode10078_1033 buf).
Proof.
  intros E N. unfold decode10078_1033. cbv zeta. apply (yields_num _ _ _ _ E).
  assert (C : (if n =? 1007 then "BaseAD" else if n =? 1008 then "BaseADSN" else "BaseADSNRC") = base_class n)
    by (destruct N as [N|[N|N]]; subst n; reflexivity).
  rewrite C.
  assert (I : inv good (base_class n) n (setattr (new_base (base_class n)) "msgNum" (VInt n))).
  { apply inv_num; [apply new_base_inv; destruct N as [N|[N|N]]; subst n; cbn; tauto|]. gb E. }
  clear C N. set (cls := base_class n) in *. clearbody cls.
  intros x X. destruct (getbitu buf (24 + 12) 12) as [b|] eqn:G; [|discriminate]. cbn [bind] in X. revert x X.
  change (yields (inv good cls n) (bind (read_counted buf "descrLength" "descr"
     (setattr (setattr (new_base cls) "msgNum" (VInt n)) "bsID" (VInt b)) (24 + 12 + 12)) (fun '(bs, offset, descrLength) =>
      setupID <- getbitu buf offset 8;;
      (let bs0 := setattr bs "setupID" (VInt setupID) in
       let offset0 := offset + 8 in
       if String.eqb (po_class bs0) "BaseAD" then
         _ <- base_length_check (40 + 8 * descrLength) (offset0 - 24) (zlen buf) ;; Ok bs0
       else
         '(bs, offset, serialNumberLength) <- read_counted buf "serialNumberLength" "serialNumber" bs0 offset0 ;;
         if String.eqb (po_class bs) "BaseADSN" then
           _ <- base_length_check (48 + 8 * (descrLength + serialNumberLength)) (offset - 24) (zlen buf) ;; Ok bs
         else
           '(bs, offset, rcvDescriptorLength) <- read_counted buf "rcvDescriptorLength" "rcvDescriptor" bs offset ;;
           '(bs, offset, rcvFWVersionLength) <- read_counted buf "rcvFWVersionLength" "rcvFWVersion" bs offset ;;
           '(bs, offset, rcvSerNumLength) <- read_counted buf "rcvSerNumLength" "rcvSerNum" bs offset ;;
           let strLen := descrLength + serialNumberLength + rcvDescriptorLength
                    + (rcvFWVersionLength + rcvSerNumLength) in
           _ <- base_length_check (72 + 8 * strLen) (offset - 24) (zlen buf) ;; Ok bs)))).
  apply (yields_bind (inv3 good cls n)); [apply counted_inv; [|nm|nm]; apply inv_set; [exact I|gb G|nm]|].
  clear I G b. intros [[o off] d] I. unfold inv3 in I. cbn [fst] in I.
  intros x X. destruct (getbitu buf off 8) as [b|] eqn:G; [|discriminate]. cbn [bind] in X. cbv zeta in X. revert x X.
  assert (I' : inv good cls n (setattr o "setupID" (VInt b))) by (apply inv_set; [exact I|gb G|nm]).
  clear I G. set (o' := setattr o "setupID" (VInt b)) in *. clearbody o'. clear o.
  match goal with |- forall x, ?a = Ok x -> _ => change (yields (inv good cls n) a) end.
  destruct (String.eqb (po_class o') "BaseAD"); [apply yields_any; intros; now apply yields_ok|].
  apply (yields_bind (inv3 good cls n)); [apply counted_inv; [exact I'|nm|nm]|].
  clear I'. intros [[o1 off1] d1] I. unfold inv3 in I. cbn [fst] in I.
  destruct (String.eqb (po_class o1) "BaseADSN"); [apply yields_any; intros; now apply yields_ok|].
  apply (yields_bind (inv3 good cls n)); [apply counted_inv; [exact I|nm|nm]|].
  clear I o1. intros [[o1 off2] d2] I. unfold inv3 in I. cbn [fst] in I.
  apply (yields_bind (inv3 good cls n)); [apply counted_inv; [exact I|nm|nm]|].
  clear I o1. intros [[o1 off3] d3] I. unfold inv3 in I. cbn [fst] in I.
  apply (yields_bind (inv3 good cls n)); [apply counted_inv; [exact I|nm|nm]|].
  clear I o1. intros [[o1 off4] d4] I. unfold inv3 in I. cbn [fst] in I.
  cbv zeta. apply yields_any. intros. now apply yields_ok.
Qed.

Lemma good_sched d : NoDup (map fst d) -> Forall (fun p : Z * (pyval * pyval) => good (fst (snd p)) /\ good (snd (snd p))) d -> good (vdict_shedule d).
Proof.
  intros N F. apply good_dict. split.
  - apply Forall_forall. intros [k x] I. apply in_map_iff in I. destruct I as ([k' [a b]] & [= <- <-] & I).
    rewrite Forall_forall in F. destruct (F _ I) as [[A1 A2] [B1 B2]]. cbn [fst snd] in *. split; [exact Logic.I|]. split; cbn; tauto.
  - rewrite map_map, (map_ext _ (fun p => VInt (fst p))) by (now intros [k [a b]]).
    rewrite <- (map_map fst VInt). apply FinFun.Injective_map_NoDup; [|exact N]. intros a b X. congruence.
Qed.
Lemma forall_zset {V} (P : V -> Prop) (d : list (Z * V)) k v : Forall (fun p => P (snd p)) d -> P v -> Forall (fun p => P (snd p)) (zset d k v).
Proof.
  intros F H. unfold zset. induction F as [|[k' w] d Hw F IH]; cbn [dset]; [constructor; [exact H|constructor]|].
  destruct (k =? k'); constructor; auto.
Qed.
Lemma forall_sset {V} (P : V -> Prop) (d : list (string * V)) k v : Forall (fun p => P (snd p)) d -> P v -> Forall (fun p => P (snd p)) (sset d k v).
Proof.
  intros F H. unfold sset. induction F as [|[k' w] d Hw F IH]; cbn [dset]; [constructor; [exact H|constructor]|].
  destruct (String.eqb k k'); constructor; auto.
Qed.

Lemma inv_1013 n : getbitu buf 24 12 = Ok n -> yields (inv good "BaseSP" n) (decode1013 buf).
Proof.
  intros E. unfold decode1013. apply (yields_bind (inv2 good "BaseSP" n)).
  { apply steps_first; [exact E|reflexivity|apply new_base_inv; cbn; tauto]. }
  intros [o off] I. unfold inv2 in I. cbn [fst] in I. apply yields_any. intros vN. apply yields_any. intros bN. cbv zeta.
  apply (yields_bind (fun x : list (Z * (pyval * pyval)) * Z =>
      NoDup (map fst (fst x)) /\
      Forall (fun p : Z * (pyval * pyval) => (fun q => good (fst q) /\ good (snd q)) (snd p)) (fst x))).
  - apply yields_for_each; [split; constructor|]. intros [d off'] a [N F] x X. cbn [fst] in N, F.
    destruct (getbitu buf off' 12) as [v1|] eqn:G1; [|discriminate]. cbn [bind] in X.
    destruct (getbitu buf (off' + 12) 1) as [v2|] eqn:G2; [|discriminate]. cbn [bind] in X.
    destruct (getbitu buf (off' + 13) 16) as [v3|] eqn:G3; [|discriminate]. cbn [bind] in X. injection X as <-.
    cbn [fst]. split; [now apply zset_nodup|]. apply (forall_zset (fun q => good (fst q) /\ good (snd q))); [exact F|]. cbn [fst snd]. split; [gb G2|gb G3].
  - intros [d off'] [N F]. cbn [fst] in N, F. apply yields_any. intros _. apply yields_ok.
    apply inv_set; [exact I| |nm]. now apply good_sched.
Qed.

Lemma inv_1029 n : getbitu buf 24 12 = Ok n -> yields (inv good "BaseTS" n) (decode1029 buf).
Proof.
  intros E. unfold decode1029. apply (yields_bind (inv2 good "BaseTS" n)).
  { apply steps_first; [exact E|reflexivity|apply new_base_inv; cbn; tauto]. }
  intros [o off] I. unfold inv2 in I. cbn [fst] in I.
  apply (yields_bind (inv3 good "BaseTS" n)); [apply counted_inv; [exact I|nm|nm]|].
  intros [[o1 off1] d1] I1. unfold inv3 in I1. cbn [fst] in I1. apply yields_any. intros. now apply yields_ok.
Qed.

Lemma ustr_inj a b : ustr a = ustr b -> a = b.
Proof.
  revert b. induction a as [|c a IH]; intros [|d b] H; cbn [ustr] in H; try discriminate; [reflexivity|].
  injection H as H1 H2. apply IH in H2. apply N2Z.inj in H1. subst b. f_equal.
  rewrite <- (Ascii.ascii_N_embedding c), <- (Ascii.ascii_N_embedding d). now rewrite H1.
Qed.
Lemma good_dict_s d : NoDup (map fst d) -> Forall (fun p : string * Z => Z.abs (snd p) < 2 ^ 53) d -> good (vdict_s d).
Proof.
  intros N F. apply good_dict. split.
  - apply Forall_forall. intros [k x] I. apply in_map_iff in I. destruct I as ([k' z] & [= <- <-] & I).
    rewrite Forall_forall in F. specialize (F _ I). cbn [fst snd] in *. split; [apply text_ok_ustr|]. split; [exact Logic.I|exact F].
  - rewrite map_map, (map_ext _ (fun p => vstr (fst p))) by (now intros [k z]).
    rewrite <- (map_map fst vstr). apply FinFun.Injective_map_NoDup; [|exact N]. intros a b X. apply ustr_inj. unfold vstr in X. congruence.
Qed.

Lemma inv_1230 n : getbitu buf 24 12 = Ok n -> yields (inv good "BaseGLBS" n) (decode1230 buf).
Proof.
  intros E. unfold decode1230. apply (yields_bind (inv2 good "BaseGLBS" n)).
  { apply steps_first; [exact E|reflexivity|apply new_base_inv; cbn; tauto]. }
  intros [o off] I. unfold inv2 in I. cbn [fst] in I. apply yields_any. intros val. cbv zeta.
  set (P := fun d : list (string * Z) => NoDup (map fst d) /\ Forall (fun p : string * Z => (fun z => Z.abs z < 2 ^ 53) (snd p)) d).
  apply (yields_bind (fun x : list (string * Z) * list (string * Z) * Z * Z => P (fst (fst (fst x))) /\ P (snd (fst (fst x))))).
  - assert (P0 : P bias_defaults).
    { split; [cbn; repeat (constructor; [cbn; intuition discriminate|]); constructor|]. repeat (constructor; [cbn; lia|]); constructor. }
    apply yields_for_each; [now split|]. intros [[[v c] off'] N] [mask name] [[N1 F1] [N2 F2]] x X. cbn [fst snd] in N1, N2, F1, F2.
    destruct (negb _).
    + destruct (getbits buf off' 16) as [g|] eqn:G; [|discriminate]. cbn [bind] in X. injection X as <-. cbn [fst snd].
      split; (split; [now apply dset_nodup|]); apply (forall_sset (fun z => Z.abs z < 2 ^ 53)); try assumption; [lia|].
      apply getbits_good in G; [|exact HB|lia]. apply G.
    + injection X as <-. split; now split.
  - intros [[[v c] off'] N] [[N1 F1] [N2 F2]]. cbn [fst snd] in N1, N2, F1, F2. apply yields_any. intros _. apply yields_ok.
    apply inv_set; [|now apply good_dict_s|nm]. apply inv_set; [exact I|now apply good_dict_s|nm].
Qed.

Lemma inv_base_bare n : getbitu buf 24 12 = Ok n -> yields (inv good (base_class n) n) (base_decode_bare buf).
Proof.
  intros E. unfold base_decode_bare, base_get_msg_num. apply (yields_num _ _ _ _ E).
  destruct (Z.eqb_spec n 1005) as [->|?]; [apply inv_10056; auto|].
  destruct (Z.eqb_spec n 1006) as [->|?]; [apply inv_10056; auto|].
  destruct (Z.eqb_spec n 1007) as [->|?]; [apply inv_10078; auto|].
  destruct (Z.eqb_spec n 1008) as [->|?]; [apply inv_10078; auto|].
  destruct (Z.eqb_spec n 1033) as [->|?]; [apply inv_10078; auto|].
  destruct (Z.eqb_spec n 1013) as [->|?]; [now apply inv_1013|].
  destruct (Z.eqb_spec n 1029) as [->|?]; [now apply inv_1029|].
  destruct (Z.eqb_spec n 1230) as [->|?]; [now apply inv_1230|apply yields_err].
Qed.

(** *** Scaled base station objects *)
Lemma base_copy_inv cls n o : inv good cls n o -> In cls ["BaseRP"; "BaseRPH"] ->
  yields (inv good cls n) (base_copy o).
Proof.
  intros I C. unfold base_copy. pose proof I as [(Cl & _) Num]. rewrite Cl.
  assert (X : yields (fun r => inv0 good cls r /\ (sget (po_attrs r) "msgNum" = Some (VInt n))) (bind (Ok tt) (fun _ =>
     for_each (map fst (base_fields cls)) (new_base cls) (fun r k => v <- getattr o k ;; Ok (setattr r k v))))).
  2:{ exact X. }
  cbn [bind].
  assert (B : map fst (base_fields cls) = "msgNum" :: tl (map fst (base_fields cls)) /\ ~ In "msgNum" (tl (map fst (base_fields cls)))).
  { cbn [In] in C. repeat (destruct C as [<-|C]; [split; [reflexivity|cbn; intuition discriminate]|]). contradiction. }
  destruct B as [B1 B2]. rewrite B1. cbn [for_each].
  assert (G : getattr o "msgNum" = Ok (VInt n)) by (unfold getattr; now rewrite Num). rewrite G. cbn [bind].
  assert (I0 : inv good cls n (setattr (new_base cls) "msgNum" (VInt n))).
  { apply inv_num; [apply new_base_inv; cbn in C |- *; tauto|]. eapply getattr_inv; [exact I|exact G]. }
  clear G B1. change (yields (inv good cls n) (for_each (tl (map fst (base_fields cls))) (setattr (new_base cls) "msgNum" (VInt n))
    (fun r k => v <- getattr o k ;; Ok (setattr r k v)))).
  revert I0. generalize (setattr (new_base cls) "msgNum" (VInt n)). revert B2. generalize (tl (map fst (base_fields cls))).
  induction l as [|a l IH]; intros NI r Ir; cbn [for_each]; [now apply yields_ok|].
  apply (yields_bind (inv good cls n)); [|intros r' Ir'; apply IH; [intros X; apply NI; now right|exact Ir']].
  intros r' X. destruct (getattr o a) as [v|] eqn:Ga; [|discriminate]. cbn [bind] in X. injection X as <-.
  apply inv_set; [exact Ir|exact (getattr_inv cls n o a v I Ga)|]. intros ->. apply NI. now left.
Qed.

Ltac yi := match goal with
  | |- yields _ (bind (set_flag _ _) _) => eapply yields_bind; [apply flag_inv; [eassumption|nm]|]
  | |- yields _ (bind (set_times _ _ _ _) _) => eapply yields_bind; [apply times_inv; [eassumption|nm|vm_compute; reflexivity]|]
  | |- yields _ (bind (set_text _ _) _) => eapply yields_bind; [apply text_inv; [eassumption|nm]|]
  end; clear; intros; cbv beta in *.

Lemma inv_scale cls n o : inv good cls n o -> yields (inv good cls n) (base_scale o).
Proof.
  intros I. pose proof I as [(C & _) _]. unfold base_scale. cbv zeta. rewrite C.
  destruct (String.eqb_spec cls "BaseRP") as [X|X1]; [|destruct (String.eqb_spec cls "BaseRPH") as [X|X2]].
  1,2: cbn [orb]; unfold scale10056; eapply yields_bind; [eapply base_copy_inv; [exact I|rewrite X; cbn; tauto]|];
    clear I C X; intros o1 I; cbv beta in I;
    do 4 (eapply yields_bind; [apply flag_inv; [exact I|nm]|]; clear I o1; intros o1 I; cbv beta in I);
    (eapply yields_bind; [apply times_inv; [exact I|nm|vm_compute; reflexivity]|]); clear I o1; intros o1 I; cbv beta in I;
    (eapply yields_bind; [apply flag_inv; [exact I|nm]|]); clear I o1; intros o1 I; cbv beta in I;
    (eapply yields_bind; [apply times_inv; [exact I|nm|vm_compute; reflexivity]|]); clear I o1; intros o1 I; cbv beta in I;
    do 3 (apply yields_any; intros); cbv zeta;
    (eapply yields_bind; [apply times_inv; [apply inv_set; [exact I|split; [apply text_ok_ustr|exact Logic.I]|nm]|nm|vm_compute; reflexivity]|]);
    clear I o1; intros o1 I; cbv beta in I; destruct (String.eqb _ _); [apply times_inv; [exact I|nm|vm_compute; reflexivity]|now apply yields_ok].
  cbn [orb]. destruct (_ || _).
  { unfold scale10078_1033. cbv zeta.
    eapply yields_bind; [apply text_inv; [exact I|nm]|]. clear I C o; intros o1 I; cbv beta in I.
    destruct (String.eqb _ _); [now apply yields_ok|].
    eapply yields_bind; [apply text_inv; [exact I|nm]|]. clear I o1; intros o1 I; cbv beta in I.
    destruct (String.eqb _ _); [now apply yields_ok|].
    eapply yields_bind; [apply text_inv; [exact I|nm]|]. clear I o1; intros o1 I; cbv beta in I.
    eapply yields_bind; [apply text_inv; [exact I|nm]|]. clear I o1; intros o1 I; cbv beta in I.
    apply text_inv; [exact I|nm]. }
  destruct (String.eqb_spec cls "BaseSP") as [X|X3].
  { unfold scale1013. apply (yields_bind good); [intros v G; eapply getattr_inv; eassumption|].
    intros v Gv. destruct v; try apply yields_err.
    apply (yields_bind (fun d' => good (VDict d'))); [|intros d' Gd; apply yields_ok; apply inv_set; [exact I|exact Gd|nm]].
    apply map_res_good; [|exact Gv]. clear. intros k v [Cv Bv].
    destruct v as [| | | | | |l|]; try apply yields_err. destruct l as [|a [|b [|? ?]]]; try apply yields_err.
    cbn [clean fold_right bounded] in Cv, Bv.
    apply (yields_bind good); [apply times_good; [vm_compute; reflexivity|split; tauto]|].
    intros b' [Gb1 Gb2]. apply yields_ok. split; [reflexivity|]. pose proof (is_one_good a) as [Ga1 Ga2]. split; cbn; tauto. }
  destruct (String.eqb_spec cls "BaseTS") as [X|X4]; [apply text_inv; [exact I|nm]|].
  destruct (String.eqb_spec cls "BaseGLBS") as [X|X5]; [|apply yields_err].
  unfold scale1230. eapply yields_bind; [apply flag_inv; [exact I|nm]|]. clear I C o X; intros o1 I; cbv beta in I.
  apply (yields_bind good); [intros v G; eapply getattr_inv; eassumption|]. intros v Gv.
  apply (yields_bind good); [intros w G; eapply getattr_inv; eassumption|]. intros w Gw.
  destruct v as [| | | | | | |dv]; try apply yields_err. destruct w as [| | | | | | |dw]; try apply yields_err.
  apply (yields_bind (fun d' => good (VDict d'))).
  - apply map_res_good; [|exact Gw]. clear. intros k v Gv.
    apply (yields_bind good); [apply times_good; [vm_compute; reflexivity|exact Gv]|]. intros b' Gb. apply yields_ok. now split.
  - intros d' Gd. apply yields_ok. apply inv_set; [|exact Gd|nm]. apply inv_set; [exact I| |nm].
    clear - Gv. apply good_dict in Gv. destruct Gv as [F N]. apply good_dict. split.
    + apply Forall_forall. intros [k x] I. apply in_map_iff in I. destruct I as ([k' v] & [= <- <-] & I).
      rewrite Forall_forall in F. destruct (F _ I) as [K _]. split; [exact K|apply is_one_good].
    + rewrite map_map. erewrite map_ext; [exact N|]. now intros [k v].
Qed.

Lemma base_good bare n o : getbitu buf 24 12 = Ok n -> subdecoder_base bare buf = Ok (Some o) ->
  inv good (base_class n) n o.
Proof.
  intros E H. apply sub_base_inv in H. unfold base_decode in H.
  pose proof (inv_base_bare n E) as C. destruct (base_decode_bare buf) as [b|e]; [|discriminate]. cbn [bind] in H.
  specialize (C b eq_refl). destruct bare; [congruence|]. eapply inv_scale; eassumption.
Qed.

(** *** Ephemerides *)
Lemma new_eph_inv cls (B : pyval -> Prop) : B (VInt 0) -> eph_fields cls <> [] -> inv0 B cls (new_eph cls).
Proof.
  intros H0 N. split; [reflexivity|]. cbn [new_eph po_attrs]. split.
  - intros a I. assert (E : flds cls = eph_fields cls).
    { unfold flds, dataclass_fields. destruct (eph_fields cls); [congruence|reflexivity]. }
    rewrite E in I. destruct (sget (map (fun a => (a, VInt 0)) (eph_fields cls)) a) as [v|] eqn:G; [eauto|].
    exfalso. apply (proj1 (dget_None _ string_eqb_spec _ _) G). rewrite map_map. cbn [fst]. now rewrite map_id.
  - intros a v G. apply (dget_In _ string_eqb_spec) in G. apply in_map_iff in G. destruct G as (b & [= <- <-] & _). exact H0.
Qed.

Definition scaler_ok (s : scaler) : bool :=
  match s with SPow2 k => lit_ok (f_pow2 (- k)) | SDec m k => lit_ok (dec_lit m k) | _ => true end.
Lemma scaler_clean s v : scaler_ok s = true -> good v -> yields fair (apply_scaler s v).
Proof.
  intros K [C B]. destruct s; cbn [apply_scaler]; try (apply yields_ok; apply good_fair; now split);
    destruct v; try apply yields_err; apply yields_ok; (split; [|exact Logic.I]); try exact Logic.I; cbn [clean]; apply mul_fin; assumption.
Qed.
Lemma eph_getattr_inv cls n o a v : inv good cls n o -> eph_getattr o a = Ok v -> good v.
Proof.
  intros [(_ & _ & A) _] G. unfold eph_getattr in G. destruct (sget (po_attrs o) a) as [w|] eqn:E.
  - injection G as <-. exact (A _ _ E).
  - destruct (_ && _); [|discriminate]. injection G as <-. split; [exact Logic.I|cbn; lia].
Qed.

Lemma scalers_inv cls n ie l : inv good cls n ie ->
  forallb (fun p => scaler_ok (snd p) && negb (String.eqb (fst p) "msgNum")) l = true ->
  forall eph, inv fair cls n eph -> yields (inv fair cls n) (run_scalers l ie eph).
Proof.
  intros I. induction l as [|[a s] l IH]; intros F eph Ie; unfold run_scalers; cbn [for_each]; [now apply yields_ok|].
  cbn [forallb fst snd] in F. apply andb_prop in F. destruct F as [F1 F2]. apply andb_prop in F1. destruct F1 as [F0 F1].
  apply negb_true_iff, String.eqb_neq in F1.
  apply (yields_bind (inv fair cls n)); [|intros e' Ie'; now apply IH].
  apply (yields_bind good); [intros v G; exact (eph_getattr_inv cls n ie a v I G)|]. intros v Gv.
  apply (yields_bind fair); [now apply scaler_clean|]. intros w Gw. apply yields_ok. now apply inv_set.
Qed.
Lemma scalers_first cls n ie l : inv good cls n ie -> eph_fields cls <> [] ->
  forallb (fun p => scaler_ok (snd p) && negb (String.eqb (fst p) "msgNum")) l = true ->
  yields (inv fair cls n) (run_scalers (("msgNum", SCopy) :: l) ie (new_eph cls)).
Proof.
  intros I N F. unfold run_scalers. cbn [for_each].
  assert (G : eph_getattr ie "msgNum" = Ok (VInt n)) by (unfold eph_getattr; now rewrite (proj2 I)).
  rewrite G. cbn [bind apply_scaler]. apply (scalers_inv cls n ie l I F).
  assert (G0 : fair (VInt 0)) by (split; exact Logic.I).
  apply inv_num; [apply new_eph_inv; [exact G0|exact N]|]. split; exact Logic.I.
Qed.

Definition eph_class (n : Z) : string :=
  if n =? 1019 then "EphGPS" else if n =? 1020 then "EphGLO" else if n =? 1041 then "EphNAVIC"
  else if n =? 1042 then "EphBDS" else if n =? 1044 then "EphQZS" else if n =? 1045 then "EphGALF" else "EphGALI".

Lemma decoder_inv cls n steps N : getbitu buf 24 12 = Ok n -> eph_fields cls <> [] ->
  forallb (fun s => rd_ok s && negb (String.eqb (st_attr s) "msgNum")) steps = true ->
  yields (inv good cls n) (run_decoder cls (step "msgNum" RU 12 12 :: steps) N buf).
Proof.
  intros E C F. unfold run_decoder. apply (yields_bind (inv2 good cls n)).
  - apply steps_first; [exact E|exact F|]. apply new_eph_inv; [split; [exact Logic.I|cbn; lia]|exact C].
  - intros [o off] I. unfold inv2 in I. cbn [fst] in I. apply yields_any. intros _. now apply yields_ok.
Qed.

Lemma eph_bare_inv n : getbitu buf 24 12 = Ok n -> yields (inv good (eph_class n) n) (eph_decode_bare buf).
Proof.
  intros E. unfold eph_decode_bare, eph_get_msg_num. apply (yields_num _ _ _ _ E).
  repeat match goal with |- yields _ (if n =? ?k then _ else _) =>
    destruct (Z.eqb_spec n k) as [->|?]; [apply decoder_inv; [exact E|discriminate|reflexivity]|] end.
  apply yields_err.
Qed.
Lemma eph_scale_inv cls n o : inv good cls n o -> yields (inv fair cls n) (eph_scale o).
Proof.
  intros I. pose proof I as [(C & _) _]. unfold eph_scale. cbv zeta. rewrite C. clear C.
  repeat match goal with |- yields _ (if String.eqb cls ?k then _ else _) =>
    destruct (String.eqb_spec cls k) as [->|?]; [apply scalers_first; [exact I|discriminate|vm_compute; reflexivity]|] end.
  apply yields_err.
Qed.
Lemma eph_good bare n o : getbitu buf 24 12 = Ok n -> subdecoder_eph bare buf = Ok (Some o) ->
  inv fair (eph_class n) n o.
Proof.
  intros E H. unfold subdecoder_eph, eph_get_msg_num in H. rewrite E in H. cbn [bind] in H. unfold eph_decode in H.
  pose proof (eph_bare_inv n E) as C. destruct (eph_decode_bare buf) as [b|e]; cbn [bind] in H.
  2:{ destruct (is_exception e); discriminate. }
  specialize (C b eq_refl). destruct bare.
  - injection H as <-. destruct C as [(A1 & A2 & A3) A4]. split; [split; [exact A1|split; [exact A2|]]|exact A4].
    intros a v G. exact (good_fair _ (A3 _ _ G)).
  - destruct (eph_scale b) as [o'|e] eqn:S; [|destruct (is_exception e); discriminate]. injection H as <-.
    exact (eph_scale_inv _ _ _ C _ S).
Qed.
End Buf.

(** ** MSM *)
Lemma clean_ints l : clean (ints l).
Proof. unfold ints. cbn [clean]. induction l; cbn; auto. Qed.
Lemma clean_str s : clean (vstr s).
Proof. apply text_ok_ustr. Qed.
Lemma clean_dict1 k v : key_ok k -> clean v -> clean (VDict [(k, v)]).
Proof. intros. cbn. auto. Qed.
Ltac cn := repeat match goal with
  | |- Forall _ [] => apply Forall_nil
  | |- Forall _ (_ :: _) => apply Forall_cons
  | |- clean (snd _) => cbn [snd]
  | |- clean (named _) => apply clean_named
  | |- clean (ints _) => apply clean_ints
  | |- clean (vstr _) => apply clean_str
  | |- clean (VInt _) => exact Logic.I
  end.

Lemma bare_dict_clean ctl b : clean (bare_dict ctl b).
Proof.
  unfold bare_dict. apply clean_dict1; [exact Logic.I|]. apply clean_named. apply Forall_app. split.
  { unfold if_enabled, bare_hdr_slots. destruct (enable_hdr_data ctl); cn. }
  apply Forall_app. split.
  { unfold if_enabled, atr_slots. destruct (enable_aux_data ctl); cn. }
  repeat (apply Forall_cons; cbn [snd]); try apply Forall_nil;
    unfold bare_sat_slots, bare_sgn_slots; destruct b; cn.
Qed.

Lemma clean_by_signal {V} (f : V -> pyval) (d : obs_dict V) :
  (forall s sats k v, In (s, sats) d -> In (k, v) sats -> clean (f v)) -> clean (by_signal f d).
Proof.
  intros H. unfold by_signal. apply clean_named. apply Forall_forall. intros [s x] I. apply in_map_iff in I.
  destruct I as ([s' sats] & [= <- <-] & I). cbn [snd clean].
  assert (X : forall k v, In (k, v) sats -> clean (f v)) by (intros k v; apply (H _ _ _ _ I)).
  clear - X. induction sats as [|[k v] sats IH]; cbn; [exact Logic.I|]. split; [split; [exact Logic.I|apply (X k); now left]|].
  apply IH. intros k' v' I. apply (X k'). now right.
Qed.

Lemma table_in {V} (val : sat_data -> list (option cell_data) -> cell_data -> option V) codes rows s sats k v :
  In (s, sats) (table val codes rows) -> In (k, v) sats ->
  exists sd row b c, In (sd, row) rows /\ In (Some c) row /\ val sd b c = Some v.
Proof.
  intros I J. unfold table in I. apply filter_In in I. destruct I as [I _]. apply in_map_iff in I.
  destruct I as (j & [= <- <-] & _). unfold signal_entries in J. apply in_flat_map in J. destruct J as ([sd row] & R & J).
  destruct (nth j row None) as [c|] eqn:E; [|contradiction]. destruct (val sd (firstn j row) c) as [w|] eqn:Ev; [|contradiction].
  destruct J as [[= _ <-]|[]]. exists sd, row, (firstn j row), c. split; [exact R|]. split; [|exact Ev].
  destruct (le_lt_dec (length row) j) as [L|L]; [rewrite nth_overflow in E by exact L; discriminate|].
  rewrite <- E. now apply nth_In.
Qed.

Lemma row_fits m sd row c : msm_ok m -> In (sd, row) (m_rows m) -> In (Some c) row ->
  sat_fits (m_type m) sd /\ cell_fits (m_type m) c.
Proof.
  intros (_ & _ & _ & _ & _ & HS & HC) R I. split; apply Forall_forall; intros col K.
  - specialize (HS col K). rewrite Forall_forall in HS. apply HS. unfold m_sats. apply in_map_iff. now exists (sd, row).
  - specialize (HC col K). rewrite Forall_forall in HC. apply HC. unfold m_cells. apply in_flat_map. exists (sd, row).
    split; [exact R|]. unfold row_cells. apply in_flat_map. exists (Some c). split; [exact I|now left].
Qed.

Lemma rate_fin t s c x : sat_fits t s -> cell_fits t c -> phase_rate t s c = Some x -> fin x.
Proof.
  intros HS HC H. unfold phase_rate in H. destruct (has_rate t) eqn:T; [|discriminate].
  destruct (_ && _); [|discriminate]. injection H as <-. unfold sat_fits, cell_fits in *. rewrite Forall_forall in HS, HC.
  assert (A : fits (14%nat, Signed, sd_rate) s) by (apply HS; destruct t; try discriminate; cbn; tauto).
  assert (B : fits (15%nat, Signed, cd_rate) c) by (apply HC; destruct t; try discriminate; cbn; tauto).
  cbn [fits] in A, B. unfold fits_s in A, B. change (2 ^ (Z.of_nat 14 - 1)) with 8192 in A.
  change (2 ^ (Z.of_nat 15 - 1)) with 16384 in B.
  destruct (mul_lit (cd_rate c) (dec_lit 1 4)) as (r & V & Br); [lia|vm_compute; reflexivity|].
  pose proof (f_of_int_exact (sd_rate s) ltac:(lia)) as Z0. unfold dyadic in Z0. change (bpow radix2 0) with 1%R in Z0. rewrite Rmult_1_r in Z0.
  eapply val_fin. eapply add_val; [exact Z0|exact V|].
  apply (rnd_error _ 108); [lia|]. eapply Rle_lt_trans; [apply Rabs_triang|].
  assert (X : (Rabs (IZR (sd_rate s)) <= 8192)%R) by (rewrite <- abs_IZR; apply IZR_le; lia).
  change (bpow radix2 108) with (bpow radix2 (1 + 107)). rewrite bpow_plus. change (bpow radix2 1) with 2%R.
  assert (Y : (8192 <= bpow radix2 107)%R) by (change 8192%R with (bpow radix2 13); apply bpow_le; lia). lra.
Qed.

Lemma cnr_fin t c : has_cnr t = true -> cell_fits t c -> fin (cnr_dbhz t c).
Proof.
  intros T HC. unfold cell_fits in HC. rewrite Forall_forall in HC. unfold cnr_dbhz.
  assert (X : Z.abs (cd_cnr c) < 2 ^ 53).
  { destruct t; try discriminate.
    all: try (assert (B : fits (6%nat, Unsigned, cd_cnr) c) by (apply HC; cbn; tauto);
      cbn [fits] in B; unfold fits_u in B; change (2 ^ Z.of_nat 6) with 64 in B; lia).
    all: assert (B : fits (10%nat, Unsigned, cd_cnr) c) by (apply HC; cbn; tauto);
      cbn [fits] in B; unfold fits_u in B; change (2 ^ Z.of_nat 10) with 1024 in B; lia. }
  destruct (extended t); apply mul_fin; try exact X; vm_compute; reflexivity.
Qed.

Lemma carrier_fin g codes sigs : codes_of g sigs = Some codes -> Forall (fun c => fin (carrier g c)) codes.
Proof.
  revert codes. induction sigs as [|k sigs IH]; cbn [codes_of]; intros codes H; [injection H as <-; constructor|].
  destruct (signal_code g k) as [c|] eqn:E; [|discriminate]. destruct (codes_of g sigs) as [cs|]; [|discriminate].
  injection H as <-. constructor; [|now apply IH]. unfold signal_code in E.
  destruct (find _ _) as [p|] eqn:F; [|discriminate]. injection E as <-. apply find_some in F. destruct F as [F _].
  assert (T : forallb (fun p => lit_ok (carrier g (snd p))) (signal_codes g) = true) by (destruct g; vm_compute; reflexivity).
  rewrite forallb_forall in T. specialize (T _ F). destruct (lit_ok_val _ T) as (r & V & _). eapply val_fin, V.
Qed.

Lemma scaled_clean ctl m codes : msm_ok m -> codes_of (m_gnss m) (m_sigs m) = Some codes ->
  clean (observables_dict ctl (scaled_of m codes)).
Proof.
  intros OK C. unfold observables_dict. apply clean_dict1; [exact Logic.I|]. apply clean_named. apply Forall_app. split.
  { unfold if_enabled. destruct (enable_hdr_data ctl); [|apply Forall_nil]. apply Forall_cons; [|apply Forall_nil].
    cbn [snd]. apply clean_named. unfold hdr_slots. apply Forall_cons; [|cn].
    cbn [snd scaled_of ob_hdr scaled_hdr d_signals]. apply clean_named. pose proof (carrier_fin _ _ _ C) as F.
    clear - F. induction F as [|c codes H F IH]; cbn; constructor; [exact H|exact IH]. }
  apply Forall_app. split.
  { unfold if_enabled, aux_slots, coded. destruct (enable_aux_data ctl); cn. }
  apply Forall_cons; [|apply Forall_nil]. cbn [snd]. apply clean_named. unfold JsonModel.obs_slots.
  cbn [scaled_of ob_obs scaled_obs o_rng o_phs o_ltm o_hca o_dpl o_c2n].
  repeat (apply Forall_cons; cbn [snd]); try apply Forall_nil; apply clean_by_signal; intros s sats k v I J;
    try exact Logic.I; destruct (table_in _ _ _ _ _ _ _ I J) as (sd & row & b & c & R & Rc & E);
    destruct (row_fits _ _ _ _ OK R Rc) as [FS FC]; cbn [clean]; change (fin v).
  - unfold rep_rng in E. destruct (code_range_accurate _ _ _ _ FS FC E) as (r & V & _). eapply val_fin, V.
  - unfold rep_phs in E. destruct (blocked _ _ _); [discriminate|].
    destruct (phase_range_accurate _ _ _ _ FS FC E) as (r & V & _). eapply val_fin, V.
  - unfold rep_dpl in E. eapply rate_fin; eassumption.
  - unfold rep_c2n in E. destruct (has_cnr (m_type m)) eqn:T; [|discriminate]. injection E as <-. now apply cnr_fin.
Qed.

(** ** The decoder *)
Lemma spec_msm g t : exists s, zget JSON_SPEC (msm_number g t) = Some s.
Proof. destruct g, t; eexists; vm_compute; reflexivity. Qed.

Lemma msm_object ctl bare msg payload crc n r : transport_frame msg payload crc -> getbitu msg 24 12 = Ok n ->
  decode_msm17 bare msg = Ok (Some r) -> object_ok ctl (OMsm r) /\ number_of (OMsm r) = Some n.
Proof.
  intros TF E D. unfold decode_msm17 in D.
  destruct (bare_decode msg) as [b|e] eqn:BD; [|destruct (is_exception e); discriminate].
  pose proof (proj1 (bare_decode_iff _ _ _ _ TF) BD) as (m & OK & NE & P & Ca & ->).
  assert (Nm : msm_number (m_gnss m) (m_type m) = n).
  { destruct (carries_at _ _ Ca) as (rest & A & _). apply get_msg_num_ok in A. unfold get_msg_num in A. rewrite E in A.
    cbn in A. congruence. }
  destruct (spec_msm (m_gnss m) (m_type m)) as [s S]. rewrite Nm in S.
  destruct bare.
  - injection D as <-. destruct (bare_of_parts m) as [EA _].
    assert (N : number_of (OMsm (MsmBare (bare_of m))) = Some n).
    { cbn [number_of]. rewrite EA. cbn [attributes_of a_msg_number]. now rewrite Nm. }
    split; [|exact N]. split; [|split; [|exact Logic.I]].
    + eexists. split; [reflexivity|apply bare_dict_clean].
    + exists n, s. now split.
  - rewrite convert_ok in D by assumption. destruct (codes_of _ _) as [codes|] eqn:EC; [|discriminate].
    cbn [option_map] in D. injection D as <-.
    assert (N : number_of (OMsm (MsmScaled (scaled_of m codes))) = Some n).
    { cbn [number_of scaled_of ob_atr attributes_of a_msg_number]. now rewrite Nm. }
    split; [|exact N]. split; [|split; [|exact Logic.I]].
    + eexists. split; [reflexivity|now apply scaled_clean].
    + exists n, s. now split.
Qed.

Lemma py_object ctl (B : pyval -> Prop) cls n o : (forall v, B v -> clean v) -> inv B cls n o ->
  is_json_dataclass cls = true -> (exists s, zget JSON_SPEC n = Some s) ->
  object_ok ctl (OPy o) /\ number_of (OPy o) = Some n.
Proof.
  intros H I D [s S]. assert (N : number_of (OPy o) = Some n) by (cbn [number_of]; now rewrite (proj2 I)).
  split; [|exact N]. split; [|split].
  - cbn [shown]. eapply inv_asdict; [exact I|exact H|]. unfold is_json_dataclass in D. destruct (dataclass_fields cls); congruence.
  - exists n, s. now split.
  - destruct I as [(-> & _) _]. exact D.
Qed.

Lemma spec_lookup (spec : list (Z * string)) (cl : Z -> string) n cls :
  forallb (fun p => is_json_dataclass (cl (fst p)) && match zget JSON_SPEC (fst p) with Some _ => true | None => false end) spec = true ->
  zget spec n = Some cls -> is_json_dataclass (cl n) = true /\ exists s, zget JSON_SPEC n = Some s.
Proof.
  intros F G. apply zget_in in G. rewrite forallb_forall in F. specialize (F _ G). cbn [fst] in F.
  apply andb_prop in F. destruct F as [F1 F2]. split; [exact F1|]. destruct (zget JSON_SPEC n); [eauto|discriminate].
Qed.

Theorem decoded_object ctl bare h msg payload crc o :
  (forall io, In (Register io) h -> standard bare io) -> transport_frame msg payload crc ->
  answer h msg = Ok (Some o) ->
  object_ok ctl o /\ exists n, has_number msg n /\ number_of o = Some n.
Proof.
  intros S TF R. assert (B : bytes_ok msg).
  { destruct (ReadProofs.frame_at _ _ _ TF) as (_ & _ & _ & B). exact B. }
  destruct (C12_result h msg o B R) as (io & n & cls & f & I & N & C & F & Rf & _).
  pose proof (number_getbitu _ _ B N) as E.
  assert (Si : standard bare io).
  { apply S. destruct I as (a & b & -> & _). apply in_or_app. right. now left. }
  enough (object_ok ctl o /\ number_of o = Some n) as [X1 X2] by (split; [exact X1|now exists n]).
  destruct C as [C _]. destruct Si as [<-|[<-|[<-|[<-|[]]]]]; cbn [sd_decode sub_msm4567 sub_msm123 sub_eph sub_base sd_spec] in F, C;
    injection F as <-; cbv beta in Rf.
  - unfold wrap_msm in Rf. destruct (decode_msm17 bare msg) as [[r|]|e] eqn:D; try discriminate. cbn in Rf. injection Rf as <-.
    eapply msm_object; eassumption.
  - unfold wrap_msm in Rf. destruct (decode_msm17 bare msg) as [[r|]|e] eqn:D; try discriminate. cbn in Rf. injection Rf as <-.
    eapply msm_object; eassumption.
  - unfold wrap_py in Rf. destruct (subdecoder_eph bare msg) as [[r|]|e] eqn:D; try discriminate. cbn in Rf. injection Rf as <-.
    destruct (spec_lookup eph_spec eph_class n cls) as [J1 J2]; [vm_compute; reflexivity|exact C|].
    eapply py_object; [|eapply eph_good; eassumption|exact J1|exact J2]. intros v [Hv _]. exact Hv.
  - unfold wrap_py in Rf. destruct (subdecoder_base bare msg) as [[r|]|e] eqn:D; try discriminate. cbn in Rf. injection Rf as <-.
    destruct (spec_lookup base_spec base_class n cls) as [J1 J2]; [vm_compute; reflexivity|exact C|].
    eapply py_object; [|eapply base_good; eassumption|exact J1|exact J2]. intros v [Hv _]. exact Hv.
Qed.
