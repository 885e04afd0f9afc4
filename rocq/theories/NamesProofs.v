(** * NamesProofs: the table of the JSON printer and the places of NamesSpec. *)
From Coq Require Import Ascii DecimalString.
From Verif Require Import PyBase PyDict JsonModel NamesSpec.
Local Open Scope string_scope.
Local Open Scope list_scope.
Local Open Scope Z_scope.

Definition systems : list (Z * string) := [(0, "GPS"); (1, "GLN"); (2, "GAL"); (3, "SBS"); (4, "QZS"); (5, "BDS"); (6, "NAVIC")].
Lemma place_spec num sub file : json_place num sub file -> exists s, zget JSON_SPEC num = Some s /\ js_dir s = sub /\ js_file s = file.
Proof.
  intros [k tag t I T|n tag I|n what I].
  - assert (t = 1 \/ t = 2 \/ t = 3 \/ t = 4 \/ t = 5 \/ t = 6 \/ t = 7) as D by lia. cbn [In] in I.
    repeat (destruct I as [[= <- <-]|I]; [repeat (destruct D as [->|D]; [eexists; repeat split; reflexivity|]); subst t; eexists; repeat split; reflexivity|]). contradiction.
  - cbn [In] in I. repeat (destruct I as [[= <- <-]|I]; [eexists; repeat split; reflexivity|]). contradiction.
  - cbn [In] in I. repeat (destruct I as [[= <- <-]|I]; [eexists; repeat split; reflexivity|]). contradiction.
Qed.
(** All places, in the order of the table. *)
Definition places : list (Z * (string * string)) :=
  flat_map (fun k => map (fun t => (1070 + 10 * fst k + t, ("MSM" ++ dec t, snd k ++ "-MSM" ++ dec t ++ "-" ++ dec (1070 + 10 * fst k + t) ++ ".json")))
                         [1; 2; 3; 4; 5; 6; 7])%string systems ++
  map (fun e => (fst e, ("EPH", snd e ++ "-EPH-" ++ dec (fst e) ++ ".json")%string))
    [(1019, "GPS"); (1020, "GLN"); (1041, "NAVIC"); (1042, "BDS"); (1044, "QZS"); (1045, "GAL"); (1046, "GAL")] ++
  map (fun e => (fst e, ("BASE", snd e ++ "-" ++ dec (fst e) ++ ".json")%string))
    [(1005, "RefPoint"); (1006, "RefPointHeight"); (1007, "AntDesc"); (1008, "AntDescSer"); (1013, "SysPar");
     (1029, "TextStr"); (1033, "AntAndRcvDesc"); (1230, "GloBias")].
Lemma places_ok num sub file : In (num, (sub, file)) places -> json_place num sub file.
Proof.
  unfold places. rewrite !in_app_iff, in_flat_map, !in_map_iff. intros [((k & tag) & I & J)|[((n & tag) & [= <- <- <-] & I)|((n & what) & [= <- <- <-] & I)]].
  - apply in_map_iff in J as (t & [= <- <- <-] & T). cbn [fst snd]. apply place_msm; [exact I|]. cbn [In] in T. lia.
  - apply place_eph. exact I.
  - apply place_base. exact I.
Qed.
Lemma spec_place num s : zget JSON_SPEC num = Some s -> json_place num (js_dir s) (js_file s).
Proof.
  intros H. apply places_ok. unfold zget in H.
  assert (E : map (fun e => (fst e, (js_dir (snd e), js_file (snd e)))) JSON_SPEC = places) by (vm_compute; reflexivity). rewrite <- E.
  apply in_map_iff. exists (num, s). split; [reflexivity|]. clear E. revert H. generalize JSON_SPEC. intros l. induction l as [|[n x] l IH]; cbn [dget]; [discriminate|].
  destruct (num =? n) eqn:Q; [|intros H; right; auto]. apply Z.eqb_eq in Q. intros [= ->]. left. congruence.
Qed.
