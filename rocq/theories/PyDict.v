(** * PyDict: Python dictionaries as insertion-ordered association lists. *)
From Coq Require Export String.
From Coq Require Export List.   (* again, so that [length] is the one of lists *)
Export ListNotations.
From Verif Require Import PyBase.

Section Dict.
Context {K V : Type} (eqb : K -> K -> bool).

(** [d.get(k)] *)
Fixpoint dget (d : list (K * V)) (k : K) : option V :=
  match d with
  | [] => None
  | (k', v) :: r => if eqb k k' then Some v else dget r k
  end.

(** [d[k]] *)
Definition dindex (d : list (K * V)) (k : K) : res V :=
  match dget d k with Some v => Ok v | None => Err EKey end.

(** [d[k] = v] / [d.update({k: v})]: replaces in place or appends. *)
Fixpoint dset (d : list (K * V)) (k : K) (v : V) : list (K * V) :=
  match d with
  | [] => [(k, v)]
  | (k', v') :: r => if eqb k k' then (k', v) :: r else (k', v') :: dset r k v
  end.

(** [del d[k]] *)
Fixpoint ddel (d : list (K * V)) (k : K) : res (list (K * V)) :=
  match d with
  | [] => Err EKey
  | (k', v') :: r => if eqb k k' then Ok r else r' <- ddel r k ;; Ok ((k', v') :: r')
  end.

End Dict.

(** Dictionaries keyed by strings and by ints. *)
Definition sget {V} := @dget string V String.eqb.
Definition sindex {V} := @dindex string V String.eqb.
Definition sset {V} := @dset string V String.eqb.
Definition sdel {V} := @ddel string V String.eqb.
Definition zget {V} := @dget Z V Z.eqb.
Definition zindex {V} := @dindex Z V Z.eqb.
Definition zset {V} := @dset Z V Z.eqb.
Definition zdel {V} := @ddel Z V Z.eqb.

Section DictFacts.
Context {K V : Type} (eqb : K -> K -> bool).
Hypothesis eqb_spec : forall a b, eqb a b = true <-> a = b.

Lemma eqb_refl' a : eqb a a = true.
Proof. now apply eqb_spec. Qed.
Lemma eqb_neq' a b : a <> b -> eqb a b = false.
Proof. intros H. destruct (eqb a b) eqn:E; [apply eqb_spec in E; congruence|reflexivity]. Qed.

Lemma dget_dset_same (d : list (K * V)) k v : dget eqb (dset eqb d k v) k = Some v.
Proof.
  induction d as [|[k' v'] r IH]; cbn [dset dget]; [now rewrite eqb_refl'|].
  destruct (eqb k k') eqn:E; cbn [dget]; rewrite E; [reflexivity|exact IH].
Qed.

Lemma dget_dset_other (d : list (K * V)) k k' v : k <> k' -> dget eqb (dset eqb d k v) k' = dget eqb d k'.
Proof.
  intros N. induction d as [|[k0 v0] r IH]; cbn [dset dget].
  - now rewrite eqb_neq' by congruence.
  - destruct (eqb k k0) eqn:E; cbn [dget].
    + apply eqb_spec in E; subst k0. now rewrite !eqb_neq' by congruence.
    + destruct (eqb k' k0); [reflexivity|exact IH].
Qed.

Lemma dget_In (d : list (K * V)) k v : dget eqb d k = Some v -> In (k, v) d.
Proof.
  induction d as [|[k' v'] r IH]; cbn [dget]; [discriminate|].
  destruct (eqb k k') eqn:E; intros H.
  - apply eqb_spec in E; inversion H; subst; now left.
  - right; auto.
Qed.

Lemma dget_None (d : list (K * V)) k : dget eqb d k = None <-> ~ In k (map fst d).
Proof.
  induction d as [|[k' v'] r IH]; cbn [dget map fst In]; [tauto|].
  destruct (eqb k k') eqn:E.
  - apply eqb_spec in E; subst. split; [discriminate|]. intros H; exfalso; apply H; now left.
  - rewrite IH. split; intros H; [intros [X|X]|]; try tauto.
    subst k'. now rewrite eqb_refl' in E.
Qed.

Lemma In_dget (d : list (K * V)) k v : NoDup (map fst d) -> In (k, v) d -> dget eqb d k = Some v.
Proof.
  induction d as [|[k' v'] r IH]; cbn [map fst dget In]; [tauto|].
  intros ND [H|H]; inversion ND as [|? ? NI ND']; subst.
  - inversion H; subst. now rewrite eqb_refl'.
  - destruct (eqb k k') eqn:E; [|now apply IH].
    apply eqb_spec in E; subst k'. exfalso; apply NI. apply (in_map fst) in H. exact H.
Qed.

Lemma dset_new (d : list (K * V)) k v : ~ In k (map fst d) -> dset eqb d k v = d ++ [(k, v)].
Proof.
  induction d as [|[k' v'] r IH]; cbn [map fst dset app In]; intros H; [reflexivity|].
  rewrite eqb_neq' by (intros X; apply H; now left). now rewrite IH by tauto.
Qed.

Lemma dset_in (d1 d2 : list (K * V)) k v v' : ~ In k (map fst d1) ->
  dset eqb (d1 ++ (k, v') :: d2) k v = d1 ++ (k, v) :: d2.
Proof.
  induction d1 as [|[k0 v0] r IH]; cbn [map fst dset app In]; intros H.
  - now rewrite eqb_refl'.
  - rewrite eqb_neq' by (intros X; apply H; now left). now rewrite IH by tauto.
Qed.

Lemma ddel_in (d1 d2 : list (K * V)) k v : ~ In k (map fst d1) ->
  ddel eqb (d1 ++ (k, v) :: d2) k = Ok (d1 ++ d2).
Proof.
  induction d1 as [|[k0 v0] r IH]; cbn [map fst ddel app In]; intros H.
  - now rewrite eqb_refl'.
  - rewrite eqb_neq' by (intros X; apply H; now left). now rewrite IH by tauto.
Qed.
End DictFacts.

Lemma string_eqb_spec a b : String.eqb a b = true <-> a = b.
Proof. apply String.eqb_eq. Qed.
Lemma z_eqb_spec a b : Z.eqb a b = true <-> a = b.
Proof. apply Z.eqb_eq. Qed.
