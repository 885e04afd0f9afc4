(** * CleanProofs: computations that neither run out of model fuel nor produce a
    KeyboardInterrupt. *)
From Verif Require Import PyBase PyDict BitsModel.

Definition clean {A} (r : res A) : Prop :=
  match r with Err EFuel | Err EKeyboard => False | _ => True end.

Lemma clean_ok {A} (a : A) : clean (Ok a).
Proof. exact I. Qed.
Lemma clean_bind {A B} (r : res A) (f : A -> res B) :
  clean r -> (forall a, r = Ok a -> clean (f a)) -> clean (bind r f).
Proof. destruct r as [a|e]; cbn [bind]; intros H K; [now apply K|exact H]. Qed.
Lemma clean_for_each {A S} (l : list A) (f : S -> A -> res S) :
  (forall s x, In x l -> clean (f s x)) -> forall st, clean (for_each l st f).
Proof.
  induction l as [|x l IH]; intros H st; cbn [for_each]; [exact I|].
  apply clean_bind; [apply H; now left|]. intros a _. apply IH. intros; apply H; now right.
Qed.
Lemma clean_map_res {A B} (f : A -> res B) l : (forall x, clean (f x)) -> clean (map_res f l).
Proof.
  intros H. induction l as [|x l IH]; cbn [map_res]; [exact I|].
  apply clean_bind; [apply H|]. intros a _. apply clean_bind; [exact IH|]. intros; exact I.
Qed.
Lemma clean_py_index {A} (l : list A) i : clean (py_index l i).
Proof.
  unfold py_index. destruct (_ <? 0); [exact I|]. destruct (nth_error l _); exact I.
Qed.
Lemma clean_dindex {K V} eqb (d : list (K * V)) k : clean (dindex eqb d k).
Proof. unfold dindex. destruct (dget eqb d k); exact I. Qed.
Lemma clean_ddel {K V} eqb (d : list (K * V)) k : clean (ddel eqb d k).
Proof.
  induction d as [|[k' v] d IH]; cbn [ddel]; [exact I|]. destruct (eqb k k'); [exact I|].
  apply clean_bind; [exact IH|]. intros; exact I.
Qed.
Lemma clean_getbitu buf p l : clean (getbitu buf p l).
Proof.
  unfold getbitu. destruct (_ || _); [exact I|]. destruct (zlen buf <? _); [exact I|].
  apply clean_bind; [|intros; exact I]. apply clean_for_each. intros.
  apply clean_bind; [apply clean_py_index|]. intros; exact I.
Qed.
Lemma clean_getbits buf p l : clean (getbits buf p l).
Proof. unfold getbits. apply clean_bind; [apply clean_getbitu|]. intros; exact I. Qed.
Lemma clean_getbitS buf p l : clean (getbitS buf p l).
Proof.
  unfold getbitS. destruct (_ <? 0); [exact I|].
  apply clean_bind; [apply clean_getbitu|]. intros; exact I.
Qed.
Lemma clean_revbitu a l o : clean (revbitu a l o).
Proof.
  unfold revbitu. destruct (_ <? _); [exact I|]. destruct (o <? 0); [exact I|].
  apply clean_bind; [|intros [? ?] _; exact I]. apply clean_for_each. intros [? ?] ? _; exact I.
Qed.
Lemma clean_catch {A} (r : res A) : clean r -> clean (catch_bits r).
Proof. unfold catch_bits. destruct r as [a|[]]; cbn; tauto. Qed.

Ltac clean_step :=
  match goal with
  | |- clean (bind _ _) => apply clean_bind; [|intros ? _]
  | |- clean (Ok _) => exact I
  | |- clean (getbitu _ _ _) => apply clean_getbitu
  | |- clean (getbits _ _ _) => apply clean_getbits
  | |- clean (getbitS _ _ _) => apply clean_getbitS
  | |- clean (revbitu _ _ _) => apply clean_revbitu
  | |- clean (py_index _ _) => apply clean_py_index
  | |- clean (sindex _ _) => apply clean_dindex
  | |- clean (zindex _ _) => apply clean_dindex
  | |- clean (sdel _ _) => apply clean_ddel
  | |- clean (map_res _ _) => apply clean_map_res; intros ?
  | |- clean (for_each _ _ _) => apply clean_for_each; intros
  | |- clean (if ?b then _ else _) => destruct b
  | |- clean (match ?x with _ => _ end) => destruct x
  | |- clean (let _ := _ in _) => cbv zeta
  | |- clean (Err _) => exact I
  end.
Ltac clean_tac := repeat clean_step.
