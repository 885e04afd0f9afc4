(** * JsonFields: looking up members of the printed objects. *)
From Coq Require Import Lia.
From Verif Require Import PyBase PyDict PyFloat PyVal PyFormat PyJson JsonSpec JsonNumbers JsonProofs
  MsmModel EphModel EphSpec EphProofs BaseModel DecoderModel JsonModel JsonFileSpec.
Local Open Scope string_scope.
Local Open Scope list_scope.
Local Open Scope Z_scope.

Lemma ustr_inj s : forall t, ustr s = ustr t -> s = t.
Proof.
  induction s as [|a s IH]; intros [|b t] H; cbn in H; try discriminate; [reflexivity|].
  injection H as E H. f_equal; [|now apply IH]. rewrite <- (Ascii.ascii_N_embedding a), <- (Ascii.ascii_N_embedding b). f_equal. lia.
Qed.
Lemma int_str_inj a b : py_int_str a = py_int_str b -> a = b.
Proof.
  intros E. pose proof (int_reads a [] ltac:(exact Logic.I)) as A. pose proof (int_reads b [] ltac:(exact Logic.I)) as B.
  rewrite E, B in A. congruence.
Qed.

(** Members of objects made from dictionaries. *)
Lemma jget_named l n : jget (jv_of (named l)) (ustr n) = option_map jv_of (sget l n).
Proof.
  unfold named, sget. cbn [jv_of jget]. rewrite map_map. induction l as [|[k v] l IH]; [reflexivity|].
  cbn [map find dget fst snd key_text vstr]. destruct (list_eq_dec Z.eq_dec (ustr k) (ustr n)) as [E|E].
  - apply ustr_inj in E. subst k. now rewrite String.eqb_refl.
  - destruct (String.eqb_spec n k) as [->|D]; [congruence|exact IH].
Qed.
Lemma jget_ints {V} (f : V -> pyval) (l : list (Z * V)) z :
  jget (jv_of (VDict (map (fun '(k, v) => (VInt k, f v)) l))) (py_int_str z) = option_map (fun v => jv_of (f v)) (zget l z).
Proof.
  unfold zget. cbn [jv_of jget]. rewrite map_map. induction l as [|[k v] l IH]; [reflexivity|].
  cbn [map find dget fst snd key_text]. destruct (list_eq_dec Z.eq_dec (py_int_str k) (py_int_str z)) as [E|E].
  - apply int_str_inj in E. subst k. now rewrite Z.eqb_refl.
  - destruct (Z.eqb_spec z k) as [->|D]; [congruence|exact IH].
Qed.
Lemma jget_dict d k v : NoDup (map fst d) -> In (k, v) d ->
  (forall k', In k' (map fst d) -> key_text k' = key_text k -> k' = k) ->
  jget (jv_of (VDict d)) (key_text k) = Some (jv_of v).
Proof.
  cbn [jv_of jget]. induction d as [|[k' v'] d IH]; intros N I J; [destruct I|].
  cbn [map find fst snd] in *. inversion N as [|? ? NI N']; subst.
  destruct (list_eq_dec Z.eq_dec (key_text k') (key_text k)) as [E|E].
  - apply J in E; [|now left]. subst k'. destruct I as [I|I]; [injection I as <-; reflexivity|].
    exfalso. apply NI. apply in_map_iff. now exists (k, v).
  - destruct I as [I|I]; [injection I as -> ->; congruence|]. apply IH; [exact N'|exact I|]. intros k0 I0. apply J. now right.
Qed.

(** Data classes. *)
Lemma get_fields_sget o l d : get_fields o l = Ok d -> forall a, In a l -> forall w, sget (po_attrs o) a = Some w -> sget d a = Some w.
Proof.
  revert d. induction l as [|b l IH]; intros d H a I w S; [destruct I|]. cbn [get_fields] in H.
  destruct (eph_getattr o b) as [v|] eqn:E; [|discriminate]. cbn [bind] in H.
  destruct (get_fields o l) as [d'|] eqn:F; [|discriminate]. cbn [bind] in H. injection H as <-.
  unfold sget in *. cbn [dget]. destruct (String.eqb_spec a b) as [->|D].
  - unfold eph_getattr, sget in E. rewrite S in E. congruence.
  - destruct I as [I|I]; [congruence|]. now apply IH.
Qed.
Lemma get_fields_none o l d a : get_fields o l = Ok d -> ~ In a l -> sget d a = None.
Proof.
  revert d. induction l as [|b l IH]; intros d H NI; cbn [get_fields] in H; [injection H as <-; reflexivity|].
  destruct (eph_getattr o b) as [v|] eqn:E; [|discriminate]. cbn [bind] in H.
  destruct (get_fields o l) as [d'|] eqn:F; [|discriminate]. cbn [bind] in H. injection H as <-.
  unfold sget in *. cbn [dget]. destruct (String.eqb_spec a b) as [->|D]; [exfalso; apply NI; now left|].
  apply IH; [reflexivity|]. intros X. apply NI. now right.
Qed.
Lemma get_fields_ok o l : (forall n, In n l -> In n (map fst (po_attrs o))) -> exists d, get_fields o l = Ok d.
Proof.
  induction l as [|b l IH]; intros H; [eexists; reflexivity|]. cbn [get_fields].
  destruct IH as [d E]; [intros n I; apply H; now right|].
  assert (X : exists v, eph_getattr o b = Ok v).
  { unfold eph_getattr. destruct (sget (po_attrs o) b) eqn:S; [eauto|].
    exfalso. apply (dget_None String.eqb string_eqb_spec) in S. apply S, H. now left. }
  destruct X as [v ->]. cbn [bind]. rewrite E. cbn [bind]. eauto.
Qed.

Definition mem (s : string) (l : list string) : bool := existsb (String.eqb s) l.
Lemma mem_In s l : mem s l = true <-> In s l.
Proof.
  unfold mem. rewrite existsb_exists. split.
  - intros (x & I & E). apply String.eqb_eq in E. now subst.
  - intros I. exists s. split; [exact I|apply String.eqb_refl].
Qed.

Lemma shown_attr ctl o l a w : dataclass_fields (po_class o) = Some l ->
  (forall n, In n l -> In n (map fst (po_attrs o))) -> In a l -> NoDup (map fst (po_attrs o)) -> In (a, w) (po_attrs o) ->
  jget (json_of ctl (OPy o)) (ustr a) = Some (jv_of w).
Proof.
  intros D C I N W. unfold json_of. cbn [shown]. unfold asdict. rewrite D. destruct (get_fields_ok o l C) as [d E]. rewrite E.
  cbn [bind]. rewrite jget_named. rewrite (get_fields_sget o l d E a I w); [reflexivity|].
  now apply (In_dget String.eqb string_eqb_spec).
Qed.
Lemma hidden_attr ctl o l a : dataclass_fields (po_class o) = Some l ->
  (forall n, In n l -> In n (map fst (po_attrs o))) -> ~ In a l -> jget (json_of ctl (OPy o)) (ustr a) = None.
Proof.
  intros D C I. unfold json_of. cbn [shown]. unfold asdict. rewrite D. destruct (get_fields_ok o l C) as [d E]. rewrite E.
  cbn [bind]. rewrite jget_named. now rewrite (get_fields_none o l d a E I).
Qed.

(** The class's fields are all there, and all the names (except some) are fields. *)
Definition covers (cls : string) (names except : list string) : bool :=
  nodupb names &&
  match dataclass_fields cls with
  | Some l => forallb (fun n => mem n names) l && forallb (fun n => mem n l || mem n except) names
  | None => false
  end.
Lemma covers_attr ctl o names except a w : covers (po_class o) names except = true ->
  (forall n, In n (map fst (po_attrs o)) <-> In n names) -> NoDup (map fst (po_attrs o)) ->
  In (a, w) (po_attrs o) -> ~ In a except -> jget (json_of ctl (OPy o)) (ustr a) = Some (jv_of w).
Proof.
  intros C S N W X. unfold covers in C. apply andb_prop in C. destruct C as [_ C].
  destruct (dataclass_fields (po_class o)) as [l|] eqn:D; [|discriminate]. apply andb_prop in C. destruct C as [C1 C2].
  rewrite forallb_forall in C1, C2. apply (shown_attr ctl o l a w D); [|  |exact N|exact W].
  - intros n I. apply S. apply mem_In. now apply C1.
  - assert (I : In a names) by (apply S, in_map_iff; now exists (a, w)).
    specialize (C2 a I). apply orb_prop in C2. destruct C2 as [H|H]; [now apply mem_In|]. apply mem_In in H. contradiction.
Qed.
Lemma covers_list ctl o names a w : covers (po_class o) names [] = true -> map fst (po_attrs o) = names ->
  In (a, w) (po_attrs o) -> jget (json_of ctl (OPy o)) (ustr a) = Some (jv_of w).
Proof.
  intros C E W. apply (covers_attr ctl o names [] a w C); [rewrite E; tauto| |exact W|intros []].
  rewrite E. apply andb_prop in C. now apply nodupb_ok.
Qed.
