(** * PropertiesCopies: C50 and C57 for the objects that the decoder returns. *)
From Coq Require Import Reals Lia.
From Flocq Require Import Core BinarySingleNaN.
From Verif Require Import PyBase PyDict PyFloat FloatProofs PyVal JsonSpec BitsModel BitsSpec MessageSpec EphModel BaseModel BaseProofs
  DecoderModel DecoderSpec DecoderProofs PropertiesDecoder TestData PropertiesEph JsonModel JsonDecoded CompareModel CompareSpec PropertiesCompare.
Local Open Scope string_scope.
Local Open Scope list_scope.
Local Open Scope Z_scope.

(** Fields of decoded objects. *)
Lemma key_refl k : key_ok k -> key_eqb k k = true.
Proof. destruct k; cbn; try tauto; intros _; [apply Z.eqb_refl|now apply str_eqb_iff]. Qed.
Lemma fair_plain v : fair v -> plain v.
Proof.
  intros [C S]. induction v using pyval_deep; cbn [clean solid plain] in *; try exact Logic.I.
  - exact S.
  - destruct f; try exact Logic.I. destruct C as [C _]. discriminate.
  - induction H as [|x l Hx F IH]; [exact Logic.I|]. cbn [fold_right] in *. destruct C as [C1 C2], S as [S1 S2].
    split; [now apply Hx|now apply IH].
  - induction H as [|x l Hx F IH]; [exact Logic.I|]. cbn [fold_right] in *. destruct C as [C1 C2], S as [S1 S2].
    split; [now apply Hx|now apply IH].
  - destruct S as [S N]. split; [|exact N]. clear N. induction H as [|[k x] l Hx F IH]; [exact Logic.I|]. cbn [fold_right] in *.
    destruct C as [[K C1] C2], S as [S1 S2]. split; [now apply key_refl|]. split; [now apply Hx|now apply IH].
Qed.

(** What the decoder returns besides observables. *)
Definition returned (bare : bool) (n : Z) (o : pyobj) : Prop :=
  exists h msg payload crc, standard_history bare h /\ transport_frame msg payload crc /\
    has_number msg n /\ answer h msg = Ok (Some (OPy o)).

Lemma returned_inv bare n o : returned bare n o ->
  (exists c, zget eph_spec n = Some c /\ inv fair (JsonDecoded.eph_class n) n o) \/
  (exists c, zget base_spec n = Some c /\ inv fair (base_class n) n o).
Proof.
  intros (h & msg & payload & crc & S & TF & N' & R).
  assert (B : bytes_ok msg) by (destruct (ReadProofs.frame_at _ _ _ TF) as (_ & _ & _ & B); exact B).
  destruct (C12_result h msg (OPy o) B R) as (io & n' & cls & f & I & N & C & F & Rf & _).
  pose proof (number_getbitu _ _ B N) as E. pose proof (number_getbitu _ _ B N') as E'.
  assert (n' = n) by congruence. subst n'.
  assert (Si : standard bare io).
  { apply S. destruct I as (a & b & -> & _). apply in_or_app. right. now left. }
  destruct C as [C _]. destruct Si as [<-|[<-|[<-|[<-|[]]]]]; cbn [sd_decode sub_msm4567 sub_msm123 sub_eph sub_base sd_spec] in F, C;
    injection F as <-; cbv beta in Rf.
  - unfold wrap_msm in Rf. destruct (MsmModel.decode_msm17 bare msg) as [[r|]|e]; discriminate.
  - unfold wrap_msm in Rf. destruct (MsmModel.decode_msm17 bare msg) as [[r|]|e]; discriminate.
  - left. exists cls. split; [exact C|]. unfold wrap_py in Rf. destruct (subdecoder_eph bare msg) as [[r|]|e] eqn:D; try discriminate.
    cbn in Rf. injection Rf as <-. eapply eph_good; eassumption.
  - right. exists cls. split; [exact C|]. unfold wrap_py in Rf. destruct (subdecoder_base bare msg) as [[r|]|e] eqn:D; try discriminate.
    cbn in Rf. injection Rf as <-. pose proof (base_good msg B bare n r E D) as [(A1 & A2 & A3) A4].
    split; [split; [exact A1|split; [exact A2|]]|exact A4]. intros a v G. exact (good_fair _ (A3 _ _ G)).
Qed.

Definition class_number (n : Z) : string :=
  match zget eph_spec n with Some _ => JsonDecoded.eph_class n | None => base_class n end.
Lemma returned_class bare n o : returned bare n o -> inv fair (class_number n) n o /\
  exists l, dataclass_fields (class_number n) = Some ("msgNum" :: l).
Proof.
  intros R. apply returned_inv in R.
  assert (T : forallb (fun p => match zget base_spec (fst p), dataclass_fields (JsonDecoded.eph_class (fst p)) with
     None, Some (a :: _) => String.eqb a "msgNum" | _, _ => false end) eph_spec = true) by (vm_compute; reflexivity).
  assert (T' : forallb (fun p => match zget eph_spec (fst p), dataclass_fields (base_class (fst p)) with
     None, Some (a :: _) => String.eqb a "msgNum" | _, _ => false end) base_spec = true) by (vm_compute; reflexivity).
  unfold class_number. destruct R as [(c & G & I)|(c & G & I)].
  - rewrite G. split; [exact I|]. apply zget_in in G. rewrite forallb_forall in T. specialize (T _ G). cbn [fst] in T.
    destruct (zget base_spec n); [discriminate|]. destruct (dataclass_fields _) as [[|a l]|]; try discriminate.
    apply String.eqb_eq in T. subst a. now exists l.
  - apply zget_in in G. rewrite forallb_forall in T'. specialize (T' _ G). cbn [fst] in T'.
    destruct (zget eph_spec n); [discriminate|]. split; [exact I|]. destruct (dataclass_fields _) as [[|a l]|]; try discriminate.
    apply String.eqb_eq in T'. subst a. now exists l.
Qed.

(** ** C50 *)
(** Every object with a [compare] method that the decoder returns - scaled or not, for every
    payload and every history - agrees with its copy, with every positive tolerance. *)
Theorem C50_decoded : forall bare n o tol, returned bare n o -> positive tol -> compare o o tol = Ok true.
Proof.
  intros bare n o tol R P. apply returned_class in R. destruct R as [[(C & F & A) _] [l D]].
  apply (C50_copy o ("msgNum" :: l)); [exact P|now rewrite C|].
  intros f I. unfold flds in F. rewrite D in F. destruct (F f I) as [v G]. exists v. split; [exact G|].
  apply fair_plain. exact (A _ _ G).
Qed.
Print Assumptions C50_decoded.

(** ** C57: comparisons of decoded objects give an answer *)
Lemma float_total tol a b : positive tol -> exists r, compare_float a b tol = Ok r.
Proof.
  intros P. unfold compare_float. destruct (_ && _); [eauto|]. destruct (_ || _); [eauto|].
  destruct (f_ltb tol b) eqn:L; cbn [bind]; [|eauto].
  destruct b; cbn [fdiv bind]; eauto. destruct tol as [| [|] | |[|] m e]; try destruct P; discriminate.
Qed.
Lemma dget_has d k : has_key d k = true -> exists v : pyval, dget key_eqb d k = Some v.
Proof.
  unfold has_key. induction d as [|[k0 x] d IH]; cbn [existsb dget fst]; [discriminate|].
  destruct (key_eqb k k0); [eauto|]. exact IH.
Qed.
Lemma values_total tol v : positive tol -> solid v -> forall w, solid w -> exists r, compare_values tol v w = Ok r.
Proof.
  intros P. induction v using pyval_deep; intros S w W.
  - destruct S.
  - destruct w; cbn; eauto.
  - destruct w; cbn; eauto.
  - destruct w; cbn; eauto. now apply float_total.
  - destruct w; cbn; eauto.
  - destruct w as [| | | | |m| |]; try (cbn; eauto; fail). rewrite cmp_list. cbn [solid] in S, W. revert m W.
    induction H as [|x l Hx F IH]; intros m W.
    + destruct m as [|y m]; [cbn; eauto|]. destruct W as [W _]. destruct y; cbn; eauto. destruct W.
    + destruct S as [S1 S2]. destruct m as [|y m]; [destruct x; cbn; eauto; destruct S1|]. destruct W as [W1 W2].
      assert (E : items_cmp tol (x :: l) (y :: m) = (eq <- compare_values tol x y ;; if eq then items_cmp tol l m else Ok false))
        by (destruct x; reflexivity).
      rewrite E. destruct (Hx S1 y W1) as [r ->]. cbn [bind]. destruct r; eauto.
  - destruct w as [| | | | | |m|]; try (cbn; eauto; fail). rewrite cmp_tuple. cbn [solid] in S, W. revert m W.
    induction H as [|x l Hx F IH]; intros m W.
    + destruct m as [|y m]; [cbn; eauto|]. destruct W as [W _]. destruct y; cbn; eauto. destruct W.
    + destruct S as [S1 S2]. destruct m as [|y m]; [destruct x; cbn; eauto; destruct S1|]. destruct W as [W1 W2].
      assert (E : items_cmp tol (x :: l) (y :: m) = (eq <- compare_values tol x y ;; if eq then items_cmp tol l m else Ok false))
        by (destruct x; reflexivity).
      rewrite E. destruct (Hx S1 y W1) as [r ->]. cbn [bind]. destruct r; eauto.
  - destruct w as [| | | | | | |e]; try (cbn; eauto; fail). rewrite cmp_dict. destruct (same_keys d e) eqn:K; cbn [negb]; [|eauto].
    cbn [solid] in S, W. destruct S as [S _], W as [W _].
    unfold same_keys in K. apply andb_prop in K. destruct K as [K _]. revert K S. induction H as [|[k x] l Hx F IH]; intros K S; [cbn; eauto|].
    cbn [forallb] in K. apply andb_prop in K. destruct K as [K1 K2]. destruct S as [S1 S2]. cbn [fst snd] in *.
    cbn [entries_cmp]. destruct (dget_has _ _ K1) as [y G]. rewrite G.
    assert (Wy : solid y).
    { clear - W G. induction e as [|[k0 z] e IH]; cbn [dget] in G; [discriminate|]. destruct W as [W1 W2].
      destruct (key_eqb k k0); [congruence|now apply IH]. }
    destruct (Hx S1 y Wy) as [r ->]. cbn [bind]. destruct r; eauto.
Qed.
Lemma fields_total tol o p l : positive tol ->
  (forall a, In a l -> exists v, sget (po_attrs o) a = Some v /\ solid v) ->
  (forall a, In a l -> exists v, sget (po_attrs p) a = Some v /\ solid v) -> exists r, compare_fields tol o p l = Ok r.
Proof.
  intros P. induction l as [|a l IH]; intros A B; cbn [compare_fields]; [eauto|]. unfold getattr.
  destruct (A a (or_introl eq_refl)) as (v & -> & V). destruct (B a (or_introl eq_refl)) as (w & -> & W). cbn [bind].
  destruct (values_total tol v P V w W) as [r ->]. cbn [bind]. destruct r; [|eauto]. apply IH; intros; [apply A|apply B]; now right.
Qed.

(** Any two objects that the decoder returned can be compared, with any positive tolerance
    (although the reference may lack fields of the object, see C57_other_class); they agree only
    if they come from messages of the same number. *)
Theorem C57_answer : forall bare n o bare' n' p tol, returned bare n o -> returned bare' n' p -> positive tol ->
  exists r, compare o p tol = Ok r /\ (r = true -> n = n').
Proof.
  intros bare n o bare' n' p tol R R' P. apply returned_class in R, R'.
  destruct R as [[(C & F & A) N] [l D]], R' as [[(C' & F' & A') N'] [l' D']].
  unfold compare. destruct (subclass _ _); cbn [negb]; [|exists false; split; [reflexivity|discriminate]].
  rewrite C, D. unfold flds in F, F'. rewrite D in F. rewrite D' in F'.
  destruct (Z.eq_dec n n') as [<-|NE].
  - destruct (fields_total tol o p ("msgNum" :: l) P) as [r E].
    + intros a I. destruct (F a I) as [v G]. exists v. split; [exact G|]. apply (A _ _ G).
    + intros a I. assert (I' : In a ("msgNum" :: l')) by congruence. destruct (F' a I') as [v G]. exists v. split; [exact G|]. apply (A' _ _ G).
    + exists r. split; [exact E|auto].
  - exists false. split; [|discriminate]. cbn [compare_fields]. unfold getattr. rewrite N, N'. cbn [bind].
    cbn [compare_values isinstance negb as_int]. assert (Q : (n =? n') = false) by now apply Z.eqb_neq. now rewrite Q.
Qed.
Print Assumptions C57_answer.

(** Objects that are not from the decoder: the comparison raises if the reference lacks a field. *)
Theorem C57_other_class : compare (setattr (new_base "BaseRPH") "msgNum" (VInt 0)) (new_base "BaseRP") DEF_FLOAT_CMP_TOLR = Err EAttr.
Proof. vm_compute. reflexivity. Qed.
Print Assumptions C57_other_class.

(** Concrete objects. *)
Definition registered : list event := map Register [sub_eph false; sub_base false].
Definition object_of (msg : list Z) : pyobj :=
  match answer registered msg with Ok (Some (OPy o)) => o | _ => new_base "" end.
Lemma sample_returned msg n : msg = frame_of (frame_payload msg) (frame_crc msg) -> zlen (frame_payload msg) <= 1023 ->
  zlen (frame_crc msg) = 3 -> bytes_okb msg = true ->
  Nat.leb 36 (length (bits_of msg)) = true -> n = uval (firstn 12 (skipn 24 (bits_of msg))) ->
  answer registered msg = Ok (Some (OPy (object_of msg))) -> returned false n (object_of msg).
Proof.
  intros E L C B N1 N2 A. exists registered, msg, (frame_payload msg), (frame_crc msg).
  split; [|split; [now apply frame_parts|split; [|exact A]]].
  - intros io I. unfold registered in I. cbn [map In] in I. unfold standard. destruct I as [[= <-]|[[= <-]|[]]]; cbn; tauto.
  - split; [now apply Nat.leb_le|exact N2].
Qed.
Example C50_decoded_nonvacuous :
  returned false 1019 (object_of (first_frame sample_1019)) /\ returned false 1230 (object_of (first_frame sample_1230)) /\
  compare (object_of (first_frame sample_1019)) (object_of (first_frame sample_1230)) DEF_FLOAT_CMP_TOLR = Ok false.
Proof.
  split; [|split; [|vm_compute; reflexivity]]; apply sample_returned; vm_compute; congruence.
Qed.
