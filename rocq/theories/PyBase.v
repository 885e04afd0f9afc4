(** * PyBase: the fragment of Python semantics used by the model.

    Python [int] is [Z] (both unbounded).  [bytes] is [list Z].  Exceptions are
    values.  Nothing in this file models a particular repo function; it fixes the
    meaning of the Python primitives the repo uses. *)
From Coq Require Export ZArith List Bool Lia.
From Coq Require Export ZifyBool ZifyNat.
Export ListNotations.
Global Open Scope Z_scope.

Ltac Zify.zify_post_hook ::= Z.div_mod_to_equations.

(** Exception classes that the modelled code raises or can trigger. *)
Inductive exn : Type :=
| EBits        (* utilities/bits.py:17 ExceptionBitsError *)
| EBareData    (* sub_decoders/RTCM_MSM.py:29 ExceptionBareDataStructure *)
| EEph         (* sub_decoders/RTCM_EPH.py:30 ExceptionEphemerisDecoder *)
| EBase        (* sub_decoders/RTCM_BASE.py:30 ExceptionBaseStationDataDecoder *)
| EDecode      (* decoder_top.py:134 ExceptionDecoderDecode *)
| EIndex       (* IndexError *)
| EKey         (* KeyError *)
| EValue       (* ValueError *)
| EType        (* TypeError *)
| EAttr        (* AttributeError *)
| EAssert      (* AssertionError *)
| EUnicode     (* UnicodeDecodeError *)
| EOS          (* OSError *)
| ENotImpl     (* NotImplementedError *)
| EOverflow    (* OverflowError *)
| EZeroDiv     (* ZeroDivisionError *)
| EStop        (* StopIteration *)
| EKeyboard    (* KeyboardInterrupt: a BaseException, not an Exception *)
| EFuel.       (* not a Python exception: a model loop ran out of fuel *)

(** Outcome of a Python computation. *)
Inductive res (A : Type) : Type :=
| Ok (a : A)
| Err (e : exn).
Arguments Ok {A} a.
Arguments Err {A} e.

Definition bind {A B} (x : res A) (f : A -> res B) : res B :=
  match x with Ok a => f a | Err e => Err e end.
Notation "x <- e1 ;; e2" := (bind e1 (fun x => e2))
  (at level 61, e1 at next level, right associativity).
Notation "' p <- e1 ;; e2" := (bind e1 (fun p => e2))
  (at level 61, p pattern, e1 at next level, right associativity).

Definition is_ok {A} (x : res A) : bool := match x with Ok _ => true | Err _ => false end.

(** [except Exception]: everything but KeyboardInterrupt. *)
Definition is_exception (e : exn) : bool :=
  match e with EKeyboard => false | _ => true end.

(** [len(x)] *)
Definition zlen {A} (l : list A) : Z := Z.of_nat (length l).

(** [l[i]]: negative indices count from the end, out of range raises. *)
Definition py_index {A} (l : list A) (i : Z) : res A :=
  let j := if i <? 0 then i + zlen l else i in
  if (j <? 0) then Err EIndex
  else match nth_error l (Z.to_nat j) with Some a => Ok a | None => Err EIndex end.

(** [l[a:b]] for non-negative a, b (clipped, never raises). *)
Definition py_slice {A} (l : list A) (a b : Z) : list A :=
  firstn (Z.to_nat (b - a)) (skipn (Z.to_nat a) l).

(** [l[a:]] for non-negative a. *)
Definition py_drop {A} (l : list A) (a : Z) : list A := skipn (Z.to_nat a) l.

(** [range(a,b)] *)
Fixpoint zrange_n (a : Z) (n : nat) : list Z :=
  match n with O => [] | S k => a :: zrange_n (a + 1) k end.
Definition zrange (a b : Z) : list Z := zrange_n a (Z.to_nat (b - a)).

(** [for x in l: st = f(st,x)] where the body can raise. *)
Fixpoint for_each {A S} (l : list A) (st : S) (f : S -> A -> res S) : res S :=
  match l with
  | [] => Ok st
  | x :: r => st' <- f st x ;; for_each r st' f
  end.

(** [mapM] *)
Fixpoint map_res {A B} (f : A -> res B) (l : list A) : res (list B) :=
  match l with
  | [] => Ok []
  | x :: r => y <- f x ;; ys <- map_res f r ;; Ok (y :: ys)
  end.

(** A byte string: what Python's [bytes] type guarantees. *)
Definition byte_ok (b : Z) : Prop := 0 <= b < 256.
Definition bytes_ok (l : list Z) : Prop := Forall byte_ok l.

(** ** Elementary facts *)
Lemma zlen_nil {A} : zlen (@nil A) = 0.
Proof. reflexivity. Qed.
Lemma zlen_cons {A} (a : A) l : zlen (a :: l) = 1 + zlen l.
Proof. unfold zlen; cbn [length]; lia. Qed.
Lemma zlen_app {A} (a b : list A) : zlen (a ++ b) = zlen a + zlen b.
Proof. unfold zlen; rewrite app_length; lia. Qed.
Lemma zlen_nonneg {A} (a : list A) : 0 <= zlen a.
Proof. unfold zlen; lia. Qed.
Lemma zlen_map {A B} (f : A -> B) l : zlen (map f l) = zlen l.
Proof. unfold zlen; now rewrite map_length. Qed.

Lemma bind_ok {A B} (x : res A) (f : A -> res B) b :
  bind x f = Ok b <-> exists a, x = Ok a /\ f a = Ok b.
Proof.
  destruct x as [a|e]; cbn [bind]; split.
  - intros H; exists a; auto.
  - intros (a' & H & H'); now inversion H; subst.
  - discriminate.
  - intros (a' & H & _); discriminate.
Qed.

Lemma bytes_ok_app a b : bytes_ok (a ++ b) <-> bytes_ok a /\ bytes_ok b.
Proof. unfold bytes_ok; apply Forall_app. Qed.
Lemma bytes_ok_cons a b : bytes_ok (a :: b) <-> byte_ok a /\ bytes_ok b.
Proof. unfold bytes_ok; split; intros H; [inversion H; auto | constructor; tauto]. Qed.
Lemma bytes_ok_firstn n l : bytes_ok l -> bytes_ok (firstn n l).
Proof.
  intros H. rewrite <- (firstn_skipn n l) in H. apply bytes_ok_app in H; tauto.
Qed.
Lemma bytes_ok_skipn n l : bytes_ok l -> bytes_ok (skipn n l).
Proof.
  intros H. rewrite <- (firstn_skipn n l) in H. apply bytes_ok_app in H; tauto.
Qed.

Lemma for_each_app {A S} (l1 l2 : list A) (st : S) f :
  for_each (l1 ++ l2) st f = (st' <- for_each l1 st f ;; for_each l2 st' f).
Proof.
  revert st; induction l1 as [|x l1 IH]; intros st; cbn [for_each app bind]; [reflexivity|].
  destruct (f st x) as [s|e]; cbn [bind]; [apply IH|reflexivity].
Qed.

(** Boolean check of [bytes_ok], for concrete data. *)
Definition bytes_okb (l : list Z) : bool := forallb (fun b => (0 <=? b) && (b <? 256)) l.
Lemma bytes_okb_ok l : bytes_okb l = true -> bytes_ok l.
Proof.
  unfold bytes_okb. intros H. rewrite forallb_forall in H. apply Forall_forall.
  intros x Hx. specialize (H x Hx). unfold byte_ok. lia.
Qed.
