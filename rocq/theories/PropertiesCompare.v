(** * PropertiesCompare: C43, C50 (comparison of objects). *)
From Coq Require Import Reals Psatz Lia Lra.
From Flocq Require Import Core BinarySingleNaN.
From Verif Require Import PyBase PyDict PyFloat PyVal FloatProofs EphModel BaseModel JsonModel CompareModel CompareSpec CompareProofs.
Local Open Scope string_scope.
Local Open Scope list_scope.
Local Open Scope Z_scope.

(** ** C43: floats *)

(** What is true: an accepted pair is within the tolerance (but for two roundings), relatively
    if the reference exceeds the tolerance, absolutely if not; and a pair within the tolerance
    (but for two roundings) is accepted.  Missing: negative references are compared absolutely,
    however large they are. *)
Theorem C43_accepted_partial : forall A B T a b t, ordinary A a -> ordinary B b -> tolerance T t ->
  compare_float A B T = Ok true -> within (1 + eps) t a b.
Proof.
  intros A B T a b t HA HB HT H. apply (compare_float_val A B T a b t HA HB HT) in H. destruct H as [H1 H2].
  destruct HT as [VT BT]. pose proof (rnd_val _ _ VT) as RT. destruct bpow_c as (C1 & C2 & C3 & C4).
  assert (P100 : (0 < bpow radix2 (-100))%R) by apply bpow_gt_0. unfold within, eps.
  split; intros L.
  - specialize (H1 L). apply (rnd_lt_inv _ _ RT) in H1. unfold Rdiv in H1. rewrite Rabs_mult, Rabs_inv, (Rabs_pos_eq b) in H1 by lra.
    assert (Y : (Rabs (rnd (b - a)) < t * b)%R).
    { apply Rmult_lt_reg_r with (/ b)%R; [apply Rinv_0_lt_compat; lra|]. rewrite Rmult_assoc, Rinv_r, Rmult_1_r by lra. exact H1. }
    pose proof (rnd_rel (b - a)) as E. rewrite C1 in E. pose proof (Rabs_triang_inv (b - a) (rnd (b - a))) as Tr. rewrite (Rabs_minus_sym (b - a) (rnd (b - a))) in Tr.
    set (e := bpow radix2 (-50)) in *. set (d := bpow radix2 (-1075)) in *. set (c := bpow radix2 (-900)) in *. set (k := bpow radix2 (-100)) in *.
    rewrite C1 in C4. set (x := Rabs (b - a)) in *.
    assert (D : (d <= / 8 * e * (k * k))%R).
    { eapply Rle_trans; [apply C3|]. replace (/ 8 * e * (k * k))%R with (/ 8 * e * k * k)%R by ring. apply Rmult_le_compat_r; lra. }
    assert (TB : (k * k <= t * b)%R) by (apply Rmult_le_compat; lra).
    assert (D' : (d <= / 8 * e * (t * b))%R) by (eapply Rle_trans; [exact D|]; apply Rmult_le_compat_l; lra).
    assert (X : ((1 - / 8 * e) * x < (1 + / 8 * e) * (t * b))%R) by lra.
    assert (Y' : ((1 + / 8 * e) <= (1 - / 8 * e) * (1 + e))%R) by nra.
    assert (0 < t * b)%R by (apply Rmult_lt_0_compat; lra).
    assert (W : ((1 + / 8 * e) * (t * b) <= (1 - / 8 * e) * (1 + e) * (t * b))%R) by (apply Rmult_le_compat_r; lra).
    apply Rmult_lt_reg_l with (1 - / 8 * e)%R; [lra|].
    replace ((1 - / 8 * e) * ((1 + e) * t * b))%R with ((1 - / 8 * e) * (1 + e) * (t * b))%R by ring. lra.
  - specialize (H2 L). apply (rnd_lt_inv _ _ RT) in H2. assert (0 < bpow radix2 (-50) * t)%R by (apply Rmult_lt_0_compat; lra). lra.
Qed.
Print Assumptions C43_accepted_partial.

Theorem C43_accepts_partial : forall A B T a b t, ordinary A a -> ordinary B b -> tolerance T t ->
  within (1 - eps) t a b -> compare_float A B T = Ok true.
Proof.
  intros A B T a b t HA HB HT [W1 W2]. apply (compare_float_val A B T a b t HA HB HT). unfold eps in *.
  destruct HT as [VT BT]. destruct bpow_c as (C1 & C2 & C3 & C4).
  assert (P100 : (0 < bpow radix2 (-100))%R) by apply bpow_gt_0. split; intros L.
  - specialize (W1 L). apply below_rnd; [apply BT|apply Rabs_pos|].
    unfold Rdiv. rewrite Rabs_mult, Rabs_inv, (Rabs_pos_eq b) by lra.
    pose proof (rnd_rel (b - a)) as E. rewrite C1 in E. pose proof (Rabs_triang_inv (rnd (b - a)) (b - a)) as Tr.
    set (e := bpow radix2 (-50)) in *. set (d := bpow radix2 (-1075)) in *. set (c := bpow radix2 (-900)) in *. set (k := bpow radix2 (-100)) in *.
    rewrite C1 in C4. set (x := Rabs (b - a)) in *.
    assert (TB : (k * k <= t * b)%R) by (apply Rmult_le_compat; lra).
    assert (D : (d <= / 8 * e * (k * k))%R).
    { eapply Rle_trans; [apply C3|]. replace (/ 8 * e * (k * k))%R with (/ 8 * e * k * k)%R by ring. apply Rmult_le_compat_r; lra. }
    assert (D' : (d <= / 8 * e * (t * b))%R) by (eapply Rle_trans; [exact D|]; apply Rmult_le_compat_l; lra).
    assert (0 < t * b)%R by (apply Rmult_lt_0_compat; lra).
    assert (P : (0 <= / 8 * e * x)%R) by (apply Rmult_le_pos; [lra|apply Rabs_pos]).
    assert (X : (x < (1 - e) * (t * b))%R) by lra.
    assert (M : (/ 8 * e * x <= / 8 * e * (t * b))%R).
    { apply Rmult_le_compat_l; [lra|]. assert (0 < e * (t * b))%R by (apply Rmult_lt_0_compat; lra). lra. }
    assert (Y : (Rabs (rnd (b - a)) <= (1 - / 4 * e) * t * b)%R) by lra.
    apply Rmult_le_reg_r with b; [lra|]. rewrite Rmult_assoc, Rinv_l, Rmult_1_r by lra. exact Y.
  - specialize (W2 L). apply below_rnd; [apply BT|apply Rabs_pos|].
    assert (0 < bpow radix2 (-50) * t)%R by (apply Rmult_lt_0_compat; lra). lra.
Qed.
Print Assumptions C43_accepts_partial.

(** Mirrored values are not treated alike: 1000000.5 agrees with 1000000 to 1e-6, but
    -1000000.5 does not agree with -1000000. *)
Theorem C43_sign_refuted : exists A B T,
  compare_float A B T = Ok true /\ compare_float (f_neg A) (f_neg B) T = Ok false /\
  (exists a b t, ordinary A a /\ ordinary B b /\ tolerance T t /\ within_abs 1 t (- a) (- b)).
Proof.
  exists (dec_lit 10000005 1), (f_of_int 1000000), (dec_lit 1 6).
  split; [vm_compute; reflexivity|]. split; [vm_compute; reflexivity|].
  assert (VA : is_val (dec_lit 10000005 1) (IZR 10000005 / IZR 10)).
  { replace (IZR 10000005 / IZR 10)%R with (IZR 2000001 * bpow radix2 (-1))%R by (change (bpow radix2 (-1)) with (/ 2)%R; lra).
    split; [vm_compute; reflexivity|]. split; [vm_compute; reflexivity|].
    assert (X : dec_lit 10000005 1 = S754_finite false (2000001 * 2 ^ 32) (-33)) by (vm_compute; reflexivity). rewrite X.
    unfold SF2R, F2R. cbn [Fnum Fexp cond_Zopp]. change (Z.pos (2000001 * 2 ^ 32)) with (2000001 * 2 ^ 32)%Z.
    rewrite mult_IZR. change (IZR (2 ^ 32)) with (bpow radix2 32). rewrite Rmult_assoc, <- bpow_plus. reflexivity. }
  assert (VB : is_val (f_of_int 1000000) (IZR 1000000)).
  { pose proof (f_of_int_exact 1000000 ltac:(lia)) as D. unfold dyadic in D. now rewrite Rmult_1_r in D. }
  assert (VT : exists t, is_val (dec_lit 1 6) t /\ (bpow radix2 (-20) < t < bpow radix2 (-19))%R).
  { destruct (dec_lit 1 6) as [| | |s m e] eqn:Q; try (vm_compute in Q; discriminate).
    exists (SF2R radix2 (dec_lit 1 6)). rewrite Q. split; [rewrite <- Q; split; [vm_compute; reflexivity|split; [vm_compute; reflexivity|reflexivity]]|].
    assert (X : dec_lit 1 6 = S754_finite false 4722366482869645 (-72)) by (vm_compute; reflexivity).
    rewrite <- Q, X. unfold SF2R, F2R. cbn [Fnum Fexp cond_Zopp].
    replace (bpow radix2 (-20)) with (bpow radix2 52 * bpow radix2 (-72))%R by (rewrite <- bpow_plus; reflexivity).
    replace (bpow radix2 (-19)) with (bpow radix2 53 * bpow radix2 (-72))%R by (rewrite <- bpow_plus; reflexivity).
    assert (0 < bpow radix2 (-72))%R by apply bpow_gt_0.
    split; apply Rmult_lt_compat_r; try exact H; [change (bpow radix2 52) with (IZR 4503599627370496)|change (bpow radix2 53) with (IZR 9007199254740992)];
      apply IZR_lt; lia. }
  destruct VT as (t & VT & T1 & T2).
  assert (K20 : (bpow radix2 (-20) = / IZR 1048576)%R) by reflexivity.
  assert (K19 : (bpow radix2 (-19) = / IZR 524288)%R) by reflexivity.
  assert (K800 : (IZR 2097152 <= bpow radix2 800)%R) by (change (IZR 2097152) with (bpow radix2 21); apply bpow_le; lia).
  assert (K100 : (bpow radix2 (-100) <= bpow radix2 (-20))%R) by (apply bpow_le; lia).
  exists (IZR 10000005 / IZR 10)%R, (IZR 1000000), t.
  split; [split; [exact VA|]; rewrite Rabs_pos_eq; lra|]. split; [split; [exact VB|]; rewrite Rabs_pos_eq; lra|].
  split; [split; [exact VT|]; split; lra|]. unfold within_abs. rewrite Rabs_Ropp, (Rabs_pos_eq (IZR 1000000)) by lra.
  replace (- IZR 1000000 - - (IZR 10000005 / IZR 10))%R with (/ 2)%R by lra. rewrite Rabs_pos_eq by lra.
  split; intros L; lra.
Qed.
Print Assumptions C43_sign_refuted.

(** Values that are not floats: an accepted pair is the same up to floats; and it is accepted
    exactly then (for values without None). *)
Lemma str_eqb_iff a b : str_eqb a b = true <-> a = b.
Proof. unfold str_eqb. destruct (list_eq_dec Z.eq_dec a b); split; congruence. Qed.
Lemma key_eqb_eq a b : key_eqb a b = true -> a = b.
Proof.
  destruct a, b; cbn; try discriminate; intros H; [apply Z.eqb_eq in H; congruence|]. apply str_eqb_iff in H. congruence.
Qed.
Lemma same_keys_has a b : same_keys a b = true -> forall k, has_key a k = has_key b k.
Proof.
  unfold same_keys. intros H k. apply andb_prop in H. destruct H as [H1 H2]. rewrite forallb_forall in H1, H2.
  assert (X : forall c d, (forall kv, In kv c -> has_key d (fst kv) = true) -> has_key c k = true -> has_key d k = true).
  { intros c d F E. unfold has_key in E. apply existsb_exists in E. destruct E as ([k' v] & I & E). cbn in E.
    apply key_eqb_eq in E. subst k'. exact (F _ I). }
  destruct (has_key a k) eqn:E1; destruct (has_key b k) eqn:E2; try reflexivity.
  - now rewrite (X a b H1 E1) in E2.
  - now rewrite (X b a H2 E2) in E1.
Qed.

Section PyvalInd.
Variable P : pyval -> Prop.
Hypothesis HN : P VNone.
Hypothesis HB : forall b, P (VBool b).
Hypothesis HI : forall z, P (VInt z).
Hypothesis HF : forall f, P (VFloat f).
Hypothesis HS : forall s, P (VStr s).
Hypothesis HL : forall l, Forall P l -> P (VList l).
Hypothesis HT : forall l, Forall P l -> P (VTuple l).
Hypothesis HD : forall d, Forall (fun kv => P (snd kv)) d -> P (VDict d).
Fixpoint pyval_deep (v : pyval) : P v :=
  match v with
  | VNone => HN | VBool b => HB b | VInt z => HI z | VFloat f => HF f | VStr s => HS s
  | VList l => HL l ((fix go l := match l return Forall P l with [] => Forall_nil _ | x :: r => Forall_cons x (pyval_deep x) (go r) end) l)
  | VTuple l => HT l ((fix go l := match l return Forall P l with [] => Forall_nil _ | x :: r => Forall_cons x (pyval_deep x) (go r) end) l)
  | VDict d => HD d ((fix go d := match d return Forall (fun kv => P (snd kv)) d with
                      [] => Forall_nil _ | (k, x) :: r => Forall_cons (k, x) (pyval_deep x) (go r) end) d)
  end.
End PyvalInd.

Definition items_cmp (tol : flt) := fix items (l m : list pyval) : res bool :=
  match l, m with
  | [], [] => Ok true
  | [], VNone :: _ => Err EType
  | [], _ :: _ => Ok false
  | VNone :: _, [] => Err EType
  | _ :: _, [] => Ok false
  | x :: r, y :: s => eq <- compare_values tol x y ;; if eq then items r s else Ok false
  end.
Definition entries_cmp (tol : flt) (b : list (pyval * pyval)) := fix entries (l : list (pyval * pyval)) : res bool :=
  match l with
  | [] => Ok true
  | (k, x) :: r =>
      match dget key_eqb b k with
      | None => Err EKey
      | Some y => eq <- compare_values tol x y ;; if eq then entries r else Ok false
      end
  end.
Lemma cmp_list tol a b : compare_values tol (VList a) (VList b) = items_cmp tol a b.
Proof. reflexivity. Qed.
Lemma cmp_tuple tol a b : compare_values tol (VTuple a) (VTuple b) = items_cmp tol a b.
Proof. reflexivity. Qed.
Lemma cmp_dict tol a b : compare_values tol (VDict a) (VDict b) = if negb (same_keys a b) then Ok false else entries_cmp tol b a.
Proof. reflexivity. Qed.

Definition near_by (tol : flt) (a b : flt) : Prop := compare_float a b tol = Ok true.

Lemma items_true tol a : Forall (fun x => forall y, compare_values tol x y = Ok true -> alike (near_by tol) x y) a ->
  forall b, items_cmp tol a b = Ok true -> Forall2 (alike (near_by tol)) a b.
Proof.
  induction 1 as [|x a Hx F IH]; intros b H.
  - destruct b as [|y b]; [constructor|]. cbn in H. destruct y; discriminate.
  - destruct b as [|y b]; [cbn in H; destruct x; discriminate|].
    assert (E : items_cmp tol (x :: a) (y :: b) = (eq <- compare_values tol x y ;; if eq then items_cmp tol a b else Ok false))
      by (destruct x; reflexivity).
    rewrite E in H. destruct (compare_values tol x y) as [[|]|] eqn:C; cbn [bind] in H; try discriminate. constructor; auto.
Qed.
Lemma entries_true tol b a : Forall (fun kv => forall y, compare_values tol (snd kv) y = Ok true -> alike (near_by tol) (snd kv) y) a ->
  entries_cmp tol b a = Ok true -> forall k x, In (k, x) a -> exists y, dget key_eqb b k = Some y /\ alike (near_by tol) x y.
Proof.
  induction 1 as [|[k0 x0] a Hx F IH]; intros H k x I; [destruct I|]. cbn [entries_cmp] in H. cbn [snd] in Hx.
  destruct (dget key_eqb b k0) as [y|] eqn:D; [|discriminate].
  destruct (compare_values tol x0 y) as [[|]|] eqn:C; cbn [bind] in H; try discriminate.
  destruct I as [I|I]; [|now apply IH]. assert (k0 = k) by congruence. assert (x0 = x) by congruence. subst. eauto.
Qed.

Theorem C43_structure : forall tol A B, compare_values tol A B = Ok true -> alike (fun a b => compare_float a b tol = Ok true) A B.
Proof.
  intros tol A. change (fun a b => compare_float a b tol = Ok true) with (near_by tol). induction A using pyval_deep; intros B C.
  - destruct B; discriminate.
  - destruct B; try discriminate; cbn in C; injection C as C; apply Z.eqb_eq in C; econstructor; cbn; [reflexivity|congruence|reflexivity|congruence].
  - destruct B; try discriminate; cbn in C; injection C as C; apply Z.eqb_eq in C. econstructor; cbn; [reflexivity|congruence].
  - destruct B; try discriminate. now constructor.
  - destruct B; try discriminate. cbn in C. assert (X : str_eqb s s0 = true) by congruence. apply str_eqb_iff in X. subst. constructor.
  - destruct B; try discriminate. rewrite cmp_list in C. constructor. now apply items_true.
  - destruct B; try discriminate. rewrite cmp_tuple in C. constructor. now apply items_true.
  - destruct B as [| | | | | | |e]; try discriminate. rewrite cmp_dict in C. destruct (same_keys d e) eqn:K; [|discriminate]. cbn [negb] in C.
    constructor; [now apply same_keys_has|]. now apply entries_true.
Qed.
Print Assumptions C43_structure.

(** Objects: an accepted pair has the fields of the first one alike. *)
Theorem C43_objects : forall self refs tol, compare self refs tol = Ok true ->
  subclass (po_class self) (po_class refs) = true /\
  forall l f, dataclass_fields (po_class self) = Some l -> In f l -> exists v w,
    sget (po_attrs self) f = Some v /\ sget (po_attrs refs) f = Some w /\
    alike (fun a b => compare_float a b tol = Ok true) v w.
Proof.
  intros self refs tol H. unfold compare in H. destruct (subclass (po_class self) (po_class refs)); [|discriminate].
  split; [reflexivity|]. intros l f E. rewrite E in H. cbn [negb] in H. clear E. induction l as [|g l IH]; [intros []|].
  cbn [compare_fields] in H. unfold getattr in H. destruct (sget (po_attrs self) g) as [v|] eqn:V; cbn [bind] in H; [|discriminate].
  destruct (sget (po_attrs refs) g) as [w|] eqn:W; cbn [bind] in H; [|discriminate].
  destruct (compare_values tol v w) as [[|]|] eqn:C; cbn [bind] in H; try discriminate.
  intros [<-|I]; [|now apply IH]. exists v, w. split; [exact V|]. split; [exact W|]. now apply C43_structure.
Qed.
Print Assumptions C43_objects.

(** ** C50: an object agrees with its copy *)

Lemma ltb_zero s m e b : f_ltb (S754_zero b) (S754_finite s m e) = negb s.
Proof. now destruct s. Qed.
Definition positive (tol : flt) : Prop := match tol with S754_finite false _ _ | S754_infinity false => True | _ => False end.
Lemma self_float tol f : positive tol -> (forall s, f <> S754_infinity s) -> compare_float f f tol = Ok true.
Proof.
  intros P N. unfold compare_float. destruct f as [s|s| |s m' e']; [| now elim (N s)|reflexivity|].
  - cbn [isnan andb orb]. assert (Z : f_sub (S754_zero s) (S754_zero s) = S754_zero false) by (now destruct s).
    rewrite Z. destruct tol as [| [|] | |[|] m e]; try destruct P; reflexivity.
  - cbn [isnan andb orb].
    assert (Z : exists b, f_sub (S754_finite s m' e') (S754_finite s m' e') = S754_zero b).
    { unfold f_sub, SFsub. rewrite Z.sub_diag. exists false. reflexivity. }
    destruct Z as [b Z]. rewrite Z. destruct (f_ltb tol (S754_finite s m' e')); cbn [fdiv bind].
    + change (f_div (S754_zero b) (S754_finite s m' e')) with (S754_zero (xorb b s)).
      destruct tol as [| [|] | |[|] m e]; try destruct P; reflexivity.
    + destruct tol as [| [|] | |[|] m e]; try destruct P; reflexivity.
Qed.
Lemma dget_self d k (x : pyval) : In (k, x) d -> NoDup (map fst d) -> (forall kv, In kv d -> key_eqb (fst kv) (fst kv) = true) ->
  dget key_eqb d k = Some x.
Proof.
  intros I ND R. induction d as [|[k0 x0] d IH]; [destruct I|]. cbn [dget]. inversion ND as [|? ? NI ND']; subst.
  destruct I as [I|I].
  - assert (k0 = k) by congruence. assert (x0 = x) by congruence. subst. pose proof (R (k, x) (or_introl eq_refl)) as Q. cbn [fst] in Q. now rewrite Q.
  - destruct (key_eqb k k0) eqn:E.
    + apply key_eqb_eq in E. subst k0. exfalso. apply NI. cbn [fst]. apply (in_map fst) in I. exact I.
    + apply IH; auto. intros kv J. apply R. now right.
Qed.

Lemma self_value tol v : positive tol -> plain v -> compare_values tol v v = Ok true.
Proof.
  intros P. induction v using pyval_deep; intros V.
  - destruct V.
  - cbn. now rewrite Z.eqb_refl.
  - cbn. now rewrite Z.eqb_refl.
  - cbn. apply self_float; [exact P|]. intros s ->. exact V.
  - cbn. now rewrite (proj2 (str_eqb_iff s s) eq_refl).
  - rewrite cmp_list. cbn [plain] in V. induction H as [|x l Hx F IH]; [reflexivity|]. destruct V as [Vx Vl].
    assert (E : items_cmp tol (x :: l) (x :: l) = (eq <- compare_values tol x x ;; if eq then items_cmp tol l l else Ok false))
      by (destruct x; reflexivity).
    rewrite E, (Hx Vx). cbn [bind]. now apply IH.
  - rewrite cmp_tuple. cbn [plain] in V. induction H as [|x l Hx F IH]; [reflexivity|]. destruct V as [Vx Vl].
    assert (E : items_cmp tol (x :: l) (x :: l) = (eq <- compare_values tol x x ;; if eq then items_cmp tol l l else Ok false))
      by (destruct x; reflexivity).
    rewrite E, (Hx Vx). cbn [bind]. now apply IH.
  - cbn [plain] in V. destruct V as [V ND]. rewrite cmp_dict.
    assert (K : forall kv, In kv d -> key_eqb (fst kv) (fst kv) = true /\ plain (snd kv)).
    { clear - V. induction d as [|[k x] d IH]; [intros kv []|]. destruct V as (A & B & C). intros kv [<-|I]; [auto|now apply IH]. }
    assert (SK : same_keys d d = true).
    { unfold same_keys. assert (X : forallb (fun kv => has_key d (fst kv)) d = true).
      { apply forallb_forall. intros kv I. unfold has_key. apply existsb_exists. exists kv. split; [exact I|]. now apply K. }
      now rewrite X. }
    rewrite SK. cbn [negb].
    assert (X : forall l, (forall kv, In kv l -> In kv d) -> Forall (fun kv => plain (snd kv) -> compare_values tol (snd kv) (snd kv) = Ok true) l ->
              entries_cmp tol d l = Ok true).
    { induction l as [|[k x] l IH]; intros I F; [reflexivity|]. cbn [entries_cmp]. inversion F as [|? ? Fx F']; subst. cbn [snd] in Fx.
      rewrite (dget_self d k x); [|apply I; now left|exact ND|intros kv J; now apply K].
      rewrite Fx by (apply (K (k, x)); apply I; now left). cbn [bind]. apply IH; [intros kv J; apply I; now right|exact F']. }
    apply X; auto.
Qed.

(** Every object without infinities and None agrees with its copy, with every positive tolerance
    (that decoded objects are such is shown in PropertiesCopies). *)
Theorem C50_copy : forall o l tol, positive tol -> dataclass_fields (po_class o) = Some l ->
  (forall f, In f l -> exists v, sget (po_attrs o) f = Some v /\ plain v) -> compare o o tol = Ok true.
Proof.
  intros o l tol P D F. unfold compare, subclass. rewrite String.eqb_refl. cbn [orb negb]. rewrite D. clear D.
  induction l as [|f l IH]; [reflexivity|]. cbn [compare_fields]. unfold getattr.
  destruct (F f (or_introl eq_refl)) as (v & V & Q). rewrite V. cbn [bind]. rewrite (self_value tol v P Q). cbn [bind].
  apply IH. intros g I. apply F. now right.
Qed.
Print Assumptions C50_copy.

(** An object with an infinite field does not agree with its copy; one with a None field makes
    the comparison raise. *)
Definition with_height (v : pyval) : pyobj := setattr (new_base "BaseRPH") "height" v.
Theorem C50_special_values :
  compare (with_height (VFloat (S754_infinity false))) (with_height (VFloat (S754_infinity false))) DEF_FLOAT_CMP_TOLR = Ok false /\
  compare (with_height VNone) (with_height VNone) DEF_FLOAT_CMP_TOLR = Err EType.
Proof. split; vm_compute; reflexivity. Qed.
Print Assumptions C50_special_values.

(** Concrete objects. *)
Example C50_nonvacuous : positive DEF_FLOAT_CMP_TOLR /\
  (let o := with_height (VFloat (dec_lit 15 1)) in
   compare o o DEF_FLOAT_CMP_TOLR = Ok true /\
   compare o (with_height (VFloat (dec_lit 1500001 6))) DEF_FLOAT_CMP_TOLR = Ok false /\
   compare o (with_height (VFloat (dec_lit 1500001 6))) (dec_lit 1 5) = Ok true /\
   compare o (new_base "BaseTS") DEF_FLOAT_CMP_TOLR = Ok false).
Proof. split; [exact Logic.I|]. split; [vm_compute; reflexivity|]. split; [vm_compute; reflexivity|]. split; vm_compute; reflexivity. Qed.
Example C43_nonvacuous : exists A B T a b t, ordinary A a /\ ordinary B b /\ tolerance T t /\ within (1 - eps) t a b /\ compare_float A B T = Ok true.
Proof.
  assert (V : forall k, (Z.abs k < 2 ^ 53)%Z -> is_val (f_of_int k) (IZR k)).
  { intros k Hk. pose proof (f_of_int_exact k Hk) as D. unfold dyadic in D. now rewrite Rmult_1_r in D. }
  assert (K800 : (IZR 16 <= bpow radix2 800)%R) by (change (IZR 16) with (bpow radix2 4); apply bpow_le; lia).
  assert (K50 : (0 < bpow radix2 (-50) < / 1024)%R) by apply bpow_c.
  assert (OA : ordinary (f_of_int 10) (IZR 10)) by (split; [apply V; lia|rewrite Rabs_pos_eq; lra]).
  assert (OB : ordinary (f_of_int 11) (IZR 11)) by (split; [apply V; lia|rewrite Rabs_pos_eq; lra]).
  assert (OT : tolerance (f_of_int 1) (IZR 1)).
  { split; [apply V; lia|]. split; [|lra]. change 1%R with (bpow radix2 0). apply bpow_le. lia. }
  assert (W : within (1 - eps) (IZR 1) (IZR 10) (IZR 11)).
  { unfold within, eps. replace (IZR 11 - IZR 10)%R with 1%R by lra. rewrite Rabs_R1. split; intros; lra. }
  exists (f_of_int 10), (f_of_int 11), (f_of_int 1), (IZR 10), (IZR 11), (IZR 1).
  split; [exact OA|]. split; [exact OB|]. split; [exact OT|]. split; [exact W|]. exact (C43_accepts_partial _ _ _ _ _ _ OA OB OT W).
Qed.
