(** * PropertiesClassify: C79 - message numbers are classified as the standard says; C37 - when a printer is ready. *)
From Coq Require Import Permutation Lia.
From Verif Require Import PyBase PyDict TablesModel BitsProofs MsmModel MsmSpec DecoderModel DecoderSpec DecoderProofs PrinterModel PrinterSpec PrinterProofs PropertiesPrinter ClassifySpec.
Local Open Scope string_scope.
Local Open Scope list_scope.
Local Open Scope Z_scope.

(** The classes of a number, as a list. *)
Definition all_gnss : list gnss := [GPS; GLO; GAL; SBAS; QZSS; BDS; NAVIC].
Definition all_types : list msm_type := [MSM1; MSM2; MSM3; MSM4; MSM5; MSM6; MSM7].
Definition class_list : list (Z * (string * string)) :=
  flat_map (fun g => map (fun t => (msm_number g t, (gnss_letter g, type_name t))) all_types) all_gnss ++
  map (fun x => (fst x, (gnss_letter (snd x), "EPH"))) [(1019, GPS); (1020, GLO); (1041, NAVIC); (1042, BDS); (1044, QZSS); (1045, GAL); (1046, GAL)] ++
  flat_map (fun x => map (fun y => (fst x + fst y, (gnss_letter (snd x), snd y))) [(1, "LEG1"); (2, "LEG2"); (3, "LEG3"); (4, "LEG4")]) [(1000, GPS); (1008, GLO)].
Lemma class_list_ok n g s : classified n g s <-> In (n, (g, s)) class_list.
Proof.
  unfold class_list. rewrite !in_app_iff. split.
  - intros [g' t|n' g' I|k s' first g' I J].
    + left. apply in_flat_map. exists g'. split; [destruct g'; cbn; tauto|]. apply in_map_iff. exists t. split; [reflexivity|destruct t; cbn; tauto].
    + right. left. apply in_map_iff. exists (n', g'). auto.
    + right. right. apply in_flat_map. exists (first, g'). split; [exact J|]. apply in_map_iff. exists (k, s'). auto.
  - intros [I|[I|I]].
    + apply in_flat_map in I. destruct I as (g' & _ & I). apply in_map_iff in I. destruct I as (t & E & _).
      apply pair_equal_spec in E as (<- & E). apply pair_equal_spec in E as (<- & <-). constructor.
    + apply in_map_iff in I. destruct I as ((n' & g') & E & I). cbn [fst snd] in E. apply pair_equal_spec in E as (<- & E). apply pair_equal_spec in E as (<- & <-). now constructor.
    + apply in_flat_map in I. destruct I as ((first & g') & J & I). apply in_map_iff in I. destruct I as ((k & s') & E & I). cbn [fst snd] in E.
      apply pair_equal_spec in E as (<- & E). apply pair_equal_spec in E as (<- & <-). now constructor.
Qed.

Definition pair_eqb (a b : string * string) : bool := String.eqb (fst a) (fst b) && String.eqb (snd a) (snd b).
Lemma pair_eqb_ok a b : pair_eqb a b = true <-> a = b.
Proof.
  destruct a as [a1 a2], b as [b1 b2]. unfold pair_eqb. cbn [fst snd]. rewrite andb_true_iff, !String.eqb_eq. split; [intros (-> & ->); reflexivity|].
  intros E. apply pair_equal_spec in E. exact E.
Qed.
Lemma outside n : n < 1001 \/ 1137 < n -> getSubset n = ("", "") /\ forall c, ~ In (n, c) class_list.
Proof.
  intros R. split.
  - unfold getSubset. assert (X : forall l, forallb (fun k => (1001 <=? k) && (k <=? 1137)) l = true -> existsb (Z.eqb n) l = false).
    { induction l as [|k l IH]; intros F; [reflexivity|]. cbn [forallb existsb] in *. apply andb_true_iff in F as (F & F'). rewrite (IH F'), orb_false_r.
      apply Z.eqb_neq. lia. }
    rewrite !X by reflexivity. destruct (Z.leb_spec 1041 n), (Z.leb_spec n 1046), (Z.leb_spec 1071 n), (Z.leb_spec n 1137); try lia; reflexivity.
  - intros c I. assert (F : forallb (fun x => (1001 <=? fst x) && (fst x <=? 1137)) class_list = true) by (vm_compute; reflexivity).
    rewrite forallb_forall in F. specialize (F _ I). cbn [fst] in F. lia.
Qed.
Lemma by_range : forall n, 1001 <= n <= 1137 ->
  (getSubset n = ("", "") /\ forall c, ~ In (n, c) class_list) \/
  (getSubset n <> ("", "") /\ forall c, In (n, c) class_list <-> c = getSubset n).
Proof.
  assert (F : forallb (fun n => let here := filter (fun x => fst x =? n) class_list in
      match here with
      | [] => pair_eqb (getSubset n) ("", "")
      | _ => negb (pair_eqb (getSubset n) ("", "")) && forallb (fun x => pair_eqb (snd x) (getSubset n)) here
      end) (zrange 1001 1138) = true) by (vm_compute; reflexivity).
  intros n R. rewrite forallb_forall in F. specialize (F n (proj2 (zrange_In 1001 1138 n) ltac:(lia))). cbv zeta in F.
  destruct (filter (fun x => fst x =? n) class_list) as [|y here] eqn:H.
  - left. split; [now apply pair_eqb_ok|]. intros c I. assert (J : In (n, c) (filter (fun x => fst x =? n) class_list)) by (apply filter_In; split; [exact I|cbn; apply Z.eqb_refl]).
    rewrite H in J. destruct J.
  - right. apply andb_true_iff in F as (F1 & F2). rewrite forallb_forall in F2. split.
    { intros E. apply pair_eqb_ok in E. rewrite E in F1. discriminate. }
    intros c. split.
    + intros I. apply pair_eqb_ok, (F2 (n, c)). rewrite <- H. apply filter_In. split; [exact I|cbn; apply Z.eqb_refl].
    + intros ->. assert (J : In y (filter (fun x => fst x =? n) class_list)) by (rewrite H; now left). apply filter_In in J. destruct J as (J & E).
      specialize (F2 y (or_introl eq_refl)). apply pair_eqb_ok in F2. apply Z.eqb_eq in E. destruct y as [k c]. cbn [fst snd] in *. now rewrite <- F2, <- E.
Qed.

(** For every number whatsoever: the system and the group named are those of the standard, or
    both are empty, which is so for all other numbers. *)
Theorem C79_classes : forall n,
  (forall g s, classified n g s -> getSubset n = (g, s)) /\
  (getSubset n = ("", "") \/ classified n (fst (getSubset n)) (snd (getSubset n))) /\
  (getSubset n = ("", "") <-> forall g s, ~ classified n g s).
Proof.
  intros n. assert (R : (n < 1001 \/ 1137 < n) \/ 1001 <= n <= 1137) by lia.
  assert (X : (getSubset n = ("", "") /\ forall c, ~ In (n, c) class_list) \/ (getSubset n <> ("", "") /\ forall c, In (n, c) class_list <-> c = getSubset n)).
  { destruct R as [R|R]; [left; now apply outside|now apply by_range]. }
  destruct X as [(E & N)|(E & Y)].
  - split; [|split; [now left|]].
    + intros g s C. apply class_list_ok in C. destruct (N _ C).
    + split; [intros _ g s C; apply class_list_ok in C; destruct (N _ C)|auto].
  - assert (CL : classified n (fst (getSubset n)) (snd (getSubset n))) by (apply class_list_ok, Y; now destruct (getSubset n)).
    split; [|split; [right; exact CL|]].
    + intros g s C. apply class_list_ok, Y in C. now symmetry.
    + split; [congruence|]. intros N. destruct (N _ _ CL).
Qed.
Print Assumptions C79_classes.

(** The numbers called MSM are those for which a decoder of observations is in charge, and those
    called ephemerides those for which a decoder of ephemerides is; the legacy observations are
    decoded by nobody. *)
Theorem C79_decoders : forall n,
  ((exists t, snd (getSubset n) = type_name t) <-> announced false n = Some "ObservablesMSM") /\
  (snd (getSubset n) = "EPH" <-> In (announced false n) (map Some ["EphGPS"; "EphGLO"; "EphNAVIC"; "EphBDS"; "EphQZS"; "EphGALF"; "EphGALI"])) /\
  (forall k, snd (getSubset n) = ("LEG" ++ k)%string -> announced false n = None).
Proof.
  intros n.
  set (okb := fun n => let s := snd (getSubset n) in let a := announced false n in
     Bool.eqb (existsb (String.eqb s) (map type_name all_types)) (match a with Some c => String.eqb c "ObservablesMSM" | None => false end) &&
     Bool.eqb (String.eqb s "EPH") (match a with Some c => existsb (String.eqb c) ["EphGPS"; "EphGLO"; "EphNAVIC"; "EphBDS"; "EphQZS"; "EphGALF"; "EphGALI"] | None => false end) &&
     (negb (String.prefix "LEG" s) || match a with None => true | Some _ => false end)).
  assert (OK : okb n = true).
  { assert (R : (n < 1001 \/ 1137 < n) \/ 1001 <= n <= 1137) by lia. destruct R as [R|R].
    - unfold okb. rewrite (proj1 (outside n R)). cbn [snd].
      destruct (Z.eqb_spec n 1230) as [->|N]; [vm_compute; reflexivity|].
      assert (A : announced false n = None); [|rewrite A; reflexivity].
      unfold announced, is_msm. destruct (Z.leb_spec 1071 n), (Z.leb_spec n 1137); try lia; cbn [andb];
        repeat match goal with |- context [n =? ?k] => destruct (Z.eqb_spec n k); [lia|] end; reflexivity.
    - assert (F : forallb okb (zrange 1001 1138) = true) by (vm_compute; reflexivity). rewrite forallb_forall in F. apply F, zrange_In. lia. }
  unfold okb in OK. clear okb. apply andb_true_iff in OK as (OK & O3). apply andb_true_iff in OK as (O1 & O2). apply eqb_prop in O1, O2.
  set (s := snd (getSubset n)) in *. set (a := announced false n) in *. clearbody s a. split; [|split].
  - split.
    + intros (t & E). assert (X : existsb (String.eqb s) (map type_name all_types) = true).
      { apply existsb_exists. exists (type_name t). split; [apply in_map; destruct t; cbn; tauto|now apply String.eqb_eq]. }
      rewrite X in O1. destruct a as [c|]; [|discriminate]. symmetry in O1. apply String.eqb_eq in O1. congruence.
    + intros ->. rewrite String.eqb_refl in O1. apply existsb_exists in O1. destruct O1 as (x & I & E). apply in_map_iff in I. destruct I as (t & <- & _).
      apply String.eqb_eq in E. eauto.
  - split.
    + intros ->. rewrite String.eqb_refl in O2. destruct a as [c|]; [|discriminate]. symmetry in O2. apply existsb_exists in O2. destruct O2 as (x & I & E).
      apply String.eqb_eq in E. subst x. now apply in_map.
    + intros I. apply in_map_iff in I. destruct I as (c & <- & I). apply String.eqb_eq. rewrite O2. apply existsb_exists. exists c. split; [exact I|apply String.eqb_refl].
  - intros k ->. cbn in O3. destruct a; [|reflexivity]. destruct k; discriminate O3.
Qed.
Print Assumptions C79_decoders.

Example C79_nonvacuous : getSubset 1127 = ("B", "MSM7") /\ getSubset 1044 = ("Q", "EPH") /\ getSubset 1012 = ("R", "LEG4") /\ getSubset 1078 = ("", "") /\
  classified 1127 "B" "MSM7" /\ classified 1012 "R" "LEG4" /\ announced false 1044 = Some "EphQZS" /\ announced false 1012 = None.
Proof.
  do 4 (split; [vm_compute; reflexivity|]). split; [exact (class_msm BDS MSM7)|]. split; [apply (class_legacy 4 "LEG4" 1008 GLO); cbn; tauto|]. split; vm_compute; reflexivity.
Qed.

(** ** C37: a printer says that it is ready exactly when a known format is in force and some
    sub-printer has been taken. *)
Theorem C37_ready : forall W (ord : list (subprinter W) -> list (subprinter W)) w h, identified h ->
  pt_ready (fst (pafter ord w h)) = true <-> format_set h /\ exists io, taken h io.
Proof.
  intros W ord w h ID. unfold pt_ready. rewrite andb_true_iff, (format_state ord w h). apply and_iff_compat_l.
  pose proof (printers_state ord w h ID) as P. destruct (pt_printers (fst (pafter ord w h))) as [|io l].
  - split; [discriminate|]. intros (io & T). apply P in T. destruct T.
  - split; [intros _; exists io; apply P; now left|]. intros _. unfold zlen. cbn [length]. destruct (Z.eqb_spec (Z.of_nat (S (length l))) 0); [lia|reflexivity].
Qed.
Print Assumptions C37_ready.
Example C37_ready_nonvacuous : identified sample_prints /\
  map (fun k => pt_ready (fst (pafter (fun l => l) [] (firstn k sample_prints)))) [1; 3; 4; 8]%nat = [false; false; true; true].
Proof. split; [exact (proj1 C37_nonvacuous)|vm_compute; reflexivity]. Qed.
