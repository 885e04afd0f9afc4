(** * C58: the texts of INI files. *)
From Coq Require Import String Permutation.
From Verif Require Import PyBase PyDict PyVal MargoModel MargoSpec JsonModel PrinterModel MainModel ControlsModel ControlsSpec ControlsProofs
  PropertiesControls SessionModel PropertiesSession IniModel IniSpec IniProofs IniData.
Local Open Scope string_scope.
Local Open Scope list_scope.
Local Open Scope Z_scope.

(** Settings that are written down by the rules of IniSpec are read as what they are: comments,
    empty lines, the choice of "=" or ":", white space around names and values, and the case of
    option names make no difference. *)
Theorem C58_layout : forall s t, sayable s -> writes s t -> parse_ini t = Parsed (said s).
Proof. exact parse_writes. Qed.
Print Assumptions C58_layout.

(** A file that says something twice (a section, or an option in one section) is refused. *)
Theorem C58_twice : forall s t, writes s t ->
  Forall (fun sec => name_ok (fst sec) /\ Forall (fun kv => key_fine (fst kv) /\ value_fine (snd kv)) (snd sec)) s ->
  ~ sayable s -> exists i, parse_ini t = Broken i.
Proof.
  intros s t W F N. pose proof (lines_twice _ _ (written_lines _ _ W) F) as [(A & B)|X].
  - exfalso. apply N. split; [exact A|]. apply Forall_forall. intros sec I.
    pose proof (proj1 (Forall_forall _ _) F _ I) as (H1 & H2). pose proof (proj1 (Forall_forall _ _) B _ I) as H3. auto.
  - unfold parse_ini. destruct (read_lines reader_init (split_lines t)) as [st x]. cbn [snd] in X. rewrite X. cbn [orb]. eauto.
Qed.
Print Assumptions C58_twice.

(** A file with a line that begins with a character other than white space, "[", "#", ";" and has
    neither "=" nor ":" is refused, whatever else is in it. *)
Theorem C58_not_an_option : forall pre c r post, Forall no_newline (pre ++ (c :: r) :: post) ->
  ~ white_char c -> c <> 35 -> c <> 59 -> c <> 91 -> ~ In 61 (c :: r) -> ~ In 58 (c :: r) ->
  exists i, parse_ini (text_of_lines (pre ++ (c :: r) :: post)) = Broken i.
Proof.
  intros pre c r post NL W N1 N2 N3 D1 D2.
  assert (E : exists post', split_lines (text_of_lines (pre ++ (c :: r) :: post)) = pre ++ (c :: r) :: post').
  { destruct (lines_back _ NL) as [E|E]; [exists post; now symmetry|].
    destruct post as [|q post] using rev_ind.
    - apply app_inj_tail in E. destruct E as [_ E]. discriminate.
    - clear IHpost. exists post. change (pre ++ (c :: r) :: post ++ [q]) with (pre ++ ((c :: r) :: post) ++ [q]) in E at 1.
      rewrite app_assoc in E at 1. apply app_inj_tail in E. destruct E as [E _]. now symmetry. }
  destruct E as (post' & E). unfold parse_ini. rewrite E.
  pose proof (bad_somewhere c r post' W N1 N2 N3 D1 D2 pre reader_init (Z.le_refl 0)) as B.
  destruct (read_lines reader_init (pre ++ (c :: r) :: post')) as [st x]. rewrite B. eauto.
Qed.
Print Assumptions C58_not_an_option.

(** An option in front of the first section is refused. *)
Theorem C58_no_section : forall pre k v l post, Forall no_newline (pre ++ l :: post) -> Forall idle pre ->
  key_fine k -> value_fine v -> option_line k v l -> exists i, parse_ini (text_of_lines (pre ++ l :: post)) = Broken i.
Proof.
  intros pre k v l post NL ID KF VF H.
  assert (E : exists post', split_lines (text_of_lines (pre ++ l :: post)) = pre ++ l :: post').
  { destruct (lines_back _ NL) as [E|E]; [exists post; now symmetry|].
    destruct post as [|q post] using rev_ind.
    - apply app_inj_tail in E. destruct E as [_ ->]. now apply option_nonempty in H.
    - clear IHpost. exists post. change (pre ++ l :: post ++ [q]) with (pre ++ (l :: post) ++ [q]) in E at 1.
      rewrite app_assoc in E at 1. apply app_inj_tail in E. destruct E as [E _]. now symmetry. }
  destruct E as (post' & E). unfold parse_ini. rewrite E, (idle_run _ _ ID). cbn [read_lines].
  destruct (option_parts _ _ _ KF VF H) as (w1 & rest & c & r & ST & CW & C91 & CM & SD & W1 & RS & IL').
  assert (X : read_line reader_init l = None).
  { unfold read_line. rewrite ST, CM. cbv iota. cbn [reader_init r_section with_indent header_of]. now rewrite (proj2 (Z.eqb_neq c 91) C91). }
  rewrite X. cbn [orb]. eauto.
Qed.
Print Assumptions C58_no_section.

(** Whatever the text of a file is: if it is accepted, then no section and no option of a section
    is there twice (a hypothesis of C55_user_wins). *)
Lemma dset_nodup {V} (d : list (text * V)) k v : NoDup (map fst d) -> NoDup (map fst (dset text_eqb d k v)).
Proof.
  intros N. destruct (in_dec (list_eq_dec Z.eq_dec) k (map fst d)) as [I|NI].
  - replace (map fst (dset text_eqb d k v)) with (map fst d); [exact N|]. clear N.
    induction d as [|[k' v'] d IH]; [destruct I|]. cbn [dset]. destruct (text_eqb k k') eqn:E; cbn [map fst]; [reflexivity|].
    f_equal. apply IH. cbn [map fst In] in I. destruct I as [->|I]; [rewrite eqb_refl in E; discriminate|exact I].
  - rewrite (dset_new _ _ _ NI), map_app. now apply nodup_snoc.
Qed.
Definition uniq (st : reader) : Prop :=
  NoDup (map fst (r_sections st)) /\ Forall (fun s => NoDup (map fst (snd s))) (r_sections st) /\ NoDup (map fst (r_defaults st)).
Lemma uniq_cursect st name : uniq st -> NoDup (map fst (cursect st name)).
Proof.
  intros (_ & F & D). unfold cursect. destruct (text_eqb name DEFAULTSECT); [exact D|].
  destruct (dget text_eqb (r_sections st) name) as [o|] eqn:G; [|constructor].
  apply (dget_In text_eqb text_eqb_spec) in G. rewrite Forall_forall in F. exact (F _ G).
Qed.
Lemma dset_forall (P : raw_options -> Prop) d k v : Forall (fun s : text * raw_options => P (snd s)) d -> P v ->
  Forall (fun s => P (snd s)) (dset text_eqb d k v).
Proof.
  intros F V. induction F as [|[k' v'] d H F IH]; cbn [dset]; [repeat constructor; exact V|]. destruct (text_eqb k k'); constructor; auto.
Qed.
Lemma uniq_set st name o : uniq st -> NoDup (map fst o) -> uniq (set_cursect st name o).
Proof.
  intros (A & B & D) N. unfold set_cursect. destruct (text_eqb name DEFAULTSECT); split; try split; cbn [r_sections r_defaults]; auto.
  - now apply dset_nodup.
  - now apply (dset_forall (fun o => NoDup (map fst o))).
Qed.
Lemma uniq_line st l st' : uniq st -> read_line st l = Some st' -> uniq st'.
Proof.
  intros U H. unfold read_line in H.
  assert (AL : forall s o v, uniq (append_line st s o v)).
  { intros s o v. unfold append_line. apply uniq_set; [exact U|]. apply dset_nodup. now apply uniq_cursect. }
  assert (REST : forall value, match header_of value with
          | Some name => open_section (with_indent st (indent_of l)) name
          | None => match r_section (with_indent st (indent_of l)) with
              | None => None
              | Some s => match split_delim value with
                  | Some (k, v) => set_option (with_indent st (indent_of l)) s (rstrip k) v
                  | None => Some (with_error (with_indent st (indent_of l))) end end end = Some st' -> uniq st').
  { intros value. destruct (header_of value) as [name|].
    - unfold open_section. cbn [with_indent r_sections]. destruct U as (A & B & D).
      destruct (dget _ _ _); [destruct (existsb _ _)|destruct (text_eqb _ _)]; intros X; inversion X; repeat split; cbn [r_sections r_defaults]; auto.
      + now apply dset_nodup.
      + apply (dset_forall (fun o => NoDup (map fst o))); [exact B|constructor].
    - destruct (r_section (with_indent st (indent_of l))) as [s|]; [|discriminate]. destruct (split_delim value) as [[k v]|].
      + unfold set_option. destruct (existsb _ _); [discriminate|]. intros X. injection X as <-.
        apply uniq_set; [|apply dset_nodup, uniq_cursect]; destruct (rstrip k); exact U.
      + intros X. inversion X. exact U. }
  destruct (if is_comment (strip is_white l) then [] else strip is_white l) as [|c v].
  - destruct (r_section st) as [s|]; [destruct (r_option st) as [|a o]; [|destruct (is_comment (strip is_white l))]|]; inversion H; subst; auto.
  - destruct (r_section st) as [s|] eqn:RS; [destruct (r_option st) as [|a o]; [|destruct (r_indent st <? indent_of l)]|];
      first [eapply REST; exact H|inversion H; apply AL].
Qed.
Lemma uniq_lines ls : forall st, uniq st -> uniq (fst (read_lines st ls)).
Proof.
  induction ls as [|l ls IH]; intros st U; cbn [read_lines]; [exact U|]. destruct (read_line st l) as [st1|] eqn:R; [|exact U].
  apply IH. exact (uniq_line _ _ _ U R).
Qed.
Theorem C58_no_duplicates : forall t i, parse_ini t = Parsed i -> no_duplicates i.
Proof.
  intros t i H. unfold parse_ini in H. assert (U : uniq reader_init) by (repeat split; constructor).
  pose proof (uniq_lines (split_lines t) _ U) as (A & B & _). destruct (read_lines reader_init (split_lines t)) as [st x]. cbn [fst] in A, B.
  destruct (x || r_error st); [discriminate|]. assert (i = joined_ini st) as -> by congruence. split; cbn [joined_ini i_sections].
  - rewrite map_map. cbn [fst]. exact A.
  - apply Forall_map. cbn [snd]. eapply Forall_impl; [|exact B]. intros s N. cbn beta. unfold join_options. rewrite map_map. cbn [fst]. exact N.
Qed.
Print Assumptions C58_no_duplicates.

(** From the texts of the two files to the controls of the run. *)
Theorem C58_controls : forall kord d td u tu j j', walk_keys kord ->
  sayable d -> writes d td -> sayable u -> writes u tu ->
  margo_complete (configuration [Init (Parsed (said d))]) -> json_from (configuration [Init (Parsed (said d))]) j ->
  margo_complete (configuration [Init (Parsed (said d)); Update (Parsed (said u))]) ->
  json_from (configuration [Init (Parsed (said d)); Update (Parsed (said u))]) j' ->
  (exists m, main_controls kord (parse_ini td) None = Ok (Some {| box_margo := m; box_json := j |}) /\
     margo_from (configuration [Init (Parsed (said d))]) m) /\
  (exists m, main_controls kord (parse_ini td) (Some (parse_ini tu)) = Ok (Some {| box_margo := m; box_json := j' |}) /\
     margo_from (configuration [Init (Parsed (said d)); Update (Parsed (said u))]) m).
Proof.
  intros kord d td u tu j j' W SD WD SU WU C1 J1 C2 J2. rewrite (parse_writes _ _ SD WD), (parse_writes _ _ SU WU).
  now apply C55_user_file_partial.
Qed.
Print Assumptions C58_controls.

(** ** The files of the repository *)
Definition shipped_channels : list Z := [1; -4; 5; 6; 1; -4; 5; 6; -2; -7; 0; -1; -2; -7; 0; -1; 4; -3; 3; 2; 4; -3; 3; 2].
Definition shipped_margo (hca lock : bool) (m : margo_controls) : Prop :=
  half_cycle_enable m = hca /\ lock_time_enable m = lock /\ gps_utc_shift m = 18 /\
  (forall sat, 1 <= sat <= 24 -> zget (glo_lit_tab m) sat = nth_error shipped_channels (Z.to_nat (sat - 1))) /\ controls_ok m.
Definition all_json (b : bool) : json_controls := {| enable_hdr_data := b; enable_aux_data := b; enable_pretty_view := b |}.

Definition parsed (t : text) : ini := match parse_ini t with Parsed i => i | _ => ini_empty end.
Lemma shipped_parsed : parse_ini shipped_defaults = Parsed (parsed shipped_defaults) /\ parse_ini shipped_addons = Parsed (parsed shipped_addons).
Proof. split; vm_compute; reflexivity. Qed.
Lemma shipped_unaliased c : names_of c = map (fun n => Some (Z.of_nat n)) (seq 1 24) -> unaliased c.
Proof.
  intros D. apply unaliased_check. rewrite D. apply FinFun.Injective_map_NoDup; [intros a b X; injection X; lia|apply seq_NoDup].
Qed.
Definition channels_check (m : margo_controls) (hca lock : bool) : bool :=
  Bool.eqb (half_cycle_enable m) hca && Bool.eqb (lock_time_enable m) lock && (gps_utc_shift m =? 18) &&
  forallb (fun n => match zget (glo_lit_tab m) (Z.of_nat n), nth_error shipped_channels (n - 1) with
                    | Some a, Some b => (a =? b) && (-1000 <=? a) && (a <=? 1000) | _, _ => false end) (seq 1 24).
Lemma channels_checked m hca lock : channels_check m hca lock = true -> shipped_margo hca lock m.
Proof.
  intros H. unfold channels_check in H. rewrite !Bool.andb_true_iff in H. destruct H as (((A & B) & C) & D).
  apply Bool.eqb_prop in A, B. apply Z.eqb_eq in C. rewrite forallb_forall in D.
  assert (X : forall sat, 1 <= sat <= 24 -> exists k, zget (glo_lit_tab m) sat = Some k /\ nth_error shipped_channels (Z.to_nat (sat - 1)) = Some k /\ -1000 <= k <= 1000).
  { intros sat S. specialize (D (Z.to_nat sat)). rewrite Z2Nat.id in D by lia. replace (Z.to_nat (sat - 1)) with (Z.to_nat sat - 1)%nat by lia.
    assert (I : In (Z.to_nat sat) (seq 1 24)) by (apply in_seq; lia). apply D in I.
    destruct (zget (glo_lit_tab m) sat) as [a|]; [|discriminate]. destruct (nth_error shipped_channels (Z.to_nat sat - 1)) as [b|]; [|discriminate].
    rewrite !Bool.andb_true_iff in I. destruct I as ((E & L) & U). apply Z.eqb_eq in E. apply Z.leb_le in L, U. subst b. exists a. auto. }
  unfold shipped_margo. repeat split; auto.
  - intros sat S. destruct (X sat S) as (k & -> & -> & _). reflexivity.
  - intros sat S. destruct (X sat S) as (k & E & _ & R). exists k. auto.
Qed.
Lemma same_shipped hca lock m m' : same_margo m m' -> shipped_margo hca lock m -> shipped_margo hca lock m'.
Proof.
  intros (A & B & C & D) (E & F & G & H & K). unfold shipped_margo. repeat split; try congruence.
  - intros sat S. rewrite <- D. auto.
  - intros sat S. rewrite <- D. auto.
Qed.

(** In whatever order Python walks the options of LITERALS: with the defaults.ini of the
    repository, and with its addons.ini on top, the controls are those below, with which every
    decoded message can be printed. *)
Theorem C58_shipped : forall kord, walk_keys kord ->
  (exists m, main_controls kord (parse_ini shipped_defaults) None = Ok (Some {| box_margo := m; box_json := all_json true |}) /\
     shipped_margo false false m) /\
  (exists m, main_controls kord (parse_ini shipped_defaults) (Some (parse_ini shipped_addons)) = Ok (Some {| box_margo := m; box_json := all_json false |}) /\
     shipped_margo true true m).
Proof.
  intros kord W. destruct shipped_parsed as (-> & ->).
  set (d := parsed shipped_defaults). set (u := parsed shipped_addons).
  assert (C1 : margo_complete (configuration [Init (Parsed d)])) by (apply complete_check; vm_compute; reflexivity).
  assert (C2 : margo_complete (configuration [Init (Parsed d); Update (Parsed u)])) by (apply complete_check; vm_compute; reflexivity).
  assert (U1 : unaliased (configuration [Init (Parsed d)])) by (apply shipped_unaliased; vm_compute; reflexivity).
  assert (U2 : unaliased (configuration [Init (Parsed d); Update (Parsed u)])) by (apply shipped_unaliased; vm_compute; reflexivity).
  assert (J1 : json_from (configuration [Init (Parsed d)]) (all_json true)).
  { pose proof (proj2 (proj2 (C48_loading ident d ident_walk)) (all_json true)) as X. apply X; vm_compute; [discriminate|reflexivity]. }
  assert (J2 : json_from (configuration [Init (Parsed d); Update (Parsed u)]) (all_json false)).
  { change (configuration [Init (Parsed d); Update (Parsed u)]) with (merge (merge ini_empty d) u).
    assert (M : merge ini_empty (merge (merge ini_empty d) u) = merge (merge ini_empty d) u) by (vm_compute; reflexivity).
    pose proof (proj2 (proj2 (C48_loading ident (merge (merge ini_empty d) u) ident_walk)) (all_json false)) as X.
    change (configuration [Init (Parsed (merge (merge ini_empty d) u))]) with (merge ini_empty (merge (merge ini_empty d) u)) in X. rewrite M in X.
    apply X; vm_compute; [discriminate|reflexivity]. }
  destruct (C55_user_file_partial kord d u _ _ W C1 J1 C2 J2) as ((m1 & E1 & F1) & (m2 & E2 & F2)).
  destruct (C55_user_file_partial ident d u _ _ ident_walk C1 J1 C2 J2) as ((n1 & G1 & H1) & (n2 & G2 & H2)).
  split; [exists m1|exists m2]; (split; [assumption|]).
  - apply (same_shipped false false n1); [exact (from_unique _ _ _ U1 H1 F1)|]. apply channels_checked.
    assert (X : match main_controls ident (Parsed d) None with Ok (Some c) => channels_check (box_margo c) false false | _ => false end = true) by (vm_compute; reflexivity).
    rewrite G1 in X. exact X.
  - apply (same_shipped true true n2); [exact (from_unique _ _ _ U2 H2 F2)|]. apply channels_checked.
    assert (X : match main_controls ident (Parsed d) (Some (Parsed u)) with Ok (Some c) => channels_check (box_margo c) true true | _ => false end = true) by (vm_compute; reflexivity).
    rewrite G2 in X. exact X.
Qed.
Print Assumptions C58_shipped.

(** ** Cases *)
Definition nl : string := String (Ascii.ascii_of_nat 10) "".
Definition sample_text : text :=
  ustr ("# a comment" ++ nl ++ nl ++ "[TIME] seconds" ++ nl ++ "GPS2UTC : 18 " ++ nl ++ "  ; another" ++ nl ++ nl ++ "[MARGO]" ++ nl ++ "Hca=" ++ nl ++ "x = a = b ; c" ++ nl).
Definition sample_settings : settings :=
  [(ustr "TIME", [(ustr "GPS2UTC", ustr "18")]); (ustr "MARGO", [(ustr "Hca", []); (ustr "x", ustr "a = b ; c")])].
Ltac no_in := vm_compute; intuition discriminate.
Ltac trim := split; [intros c r E; injection E as <- _; unfold white_char; lia|intros r c E; unfold white_char;
   apply (f_equal (fun l => hd 0 (rev l))) in E; rewrite rev_app_distr in E; cbn in E; lia].
Example C58_nonvacuous : sayable sample_settings /\ writes sample_settings sample_text /\
  parse_ini sample_text = Parsed {| i_sections := [(ustr "TIME", [(ustr "gps2utc", ustr "18")]); (ustr "MARGO", [(ustr "hca", []); (ustr "x", ustr "a = b ; c")])]; i_defaults := [] |}.
Proof.
  split; [|split; [|vm_compute; reflexivity]].
  - split; [cbn; repeat constructor; cbn; intuition discriminate|].
    apply Forall_cons; [|apply Forall_cons; [|apply Forall_nil]]; cbn [fst snd].
    all: split; [split; [discriminate|split; [no_in|vm_compute; discriminate]]|].
    all: split; [cbn; repeat constructor; cbn; intuition discriminate|].
    + constructor; [|constructor]. split; cbn [fst snd].
      * split; [discriminate|]. split; [no_in|]. split; [trim|]. split; [no_in|]. split; [no_in|]. intros c r E; injection E as <- _; lia.
      * split; [no_in|trim].
    + constructor; [|constructor; [|constructor]]; split; cbn [fst snd].
      * split; [discriminate|]. split; [no_in|]. split; [trim|]. split; [no_in|]. split; [no_in|]. intros c r E; injection E as <- _; lia.
      * split; [no_in|]. split; [discriminate|]. intros r c E. now destruct r.
      * split; [discriminate|]. split; [no_in|]. split; [trim|]. split; [no_in|]. split; [no_in|]. intros c r E; injection E as <- _; lia.
      * split; [no_in|trim].
  - exists [ustr "# a comment"; []; ustr "[TIME] seconds"; ustr "GPS2UTC : 18 "; ustr "  ; another"; []; ustr "[MARGO]"; ustr "Hca="; ustr "x = a = b ; c"; []].
    split; [|split; [repeat (constructor; [no_in|]); constructor|vm_compute; reflexivity]].
    assert (W32 : forall n, all_white (repeat 32 n)) by (intros n; apply Forall_forall; intros x I; apply repeat_spec in I; subst; unfold white_char; lia).
    apply idle_line; [right; exists [], 35; eexists; split; [reflexivity|split; [constructor|now left]]|].
    apply idle_line; [left; constructor|].
    apply (one_section (ustr "TIME") [(ustr "GPS2UTC", ustr "18")] _ _ [ustr "GPS2UTC : 18 "; ustr "  ; another"; []] [ustr "[MARGO]"; ustr "Hca="; ustr "x = a = b ; c"; []]).
    + exists (ustr " seconds"). split; [reflexivity|no_in].
    + apply one_option; [exists (repeat 32 1), 58, (repeat 32 1), (repeat 32 1); split; [reflexivity|]; repeat split; auto|].
      apply idle_option; [right; exists (repeat 32 2), 59; eexists; split; [reflexivity|split; [apply W32|now right]]|].
      apply idle_option; [left; constructor|constructor].
    + apply (one_section (ustr "MARGO") [(ustr "Hca", []); (ustr "x", ustr "a = b ; c")] _ _ [ustr "Hca="; ustr "x = a = b ; c"; []] []).
      * exists []. split; [reflexivity|no_in].
      * apply one_option; [exists [], 61, [], []; split; [reflexivity|]; repeat split; auto; constructor|].
        apply one_option; [exists (repeat 32 1), 61, (repeat 32 1), []; split; [reflexivity|]; repeat split; auto; constructor|].
        apply idle_option; [left; constructor|constructor].
      * constructor.
Qed.
Example C58_refusals :
  map (fun s => match parse_ini (ustr s) with Parsed _ => true | _ => false end)
    [("[A]" ++ nl ++ "x=1" ++ nl ++ "X=2")%string; ("[A]" ++ nl ++ "[B]" ++ nl ++ "[A]")%string; ("[A]" ++ nl ++ "words")%string; ("x=1" ++ nl ++ "[A]")%string; ("[A]" ++ nl ++ "x=1")%string] =
  [false; false; false; false; true].
Proof. vm_compute. reflexivity. Qed.

(** The names of options, as they are kept: with small letters. *)
Theorem C58_names : forall t, lower t = map small t.
Proof.
  intros t. unfold lower. apply map_ext. intros c. unfold small. destruct ((65 <=? c) && (c <=? 90)) eqn:E.
  - apply andb_prop in E as (A & B). apply Z.leb_le in A, B.
    assert (F : forallb (fun n => match find (fun p => fst p =? Z.of_nat n) (combine (ustr "ABCDEFGHIJKLMNOPQRSTUVWXYZ") (ustr "abcdefghijklmnopqrstuvwxyz")) with Some p => snd p =? Z.of_nat n + 32 | None => false end) (seq 65 26) = true) by (vm_compute; reflexivity).
    rewrite forallb_forall in F. specialize (F (Z.to_nat c)). rewrite Z2Nat.id in F by lia.
    destruct (find _ _); [|specialize (F ltac:(apply in_seq; lia)); discriminate]. specialize (F ltac:(apply in_seq; lia)). now apply Z.eqb_eq in F.
  - destruct (find _ _) as [[a b]|] eqn:F; [|reflexivity]. apply find_some in F as (I & Q). apply Z.eqb_eq in Q. apply in_combine_l in I as J. exfalso. subst c.
    assert (K : forallb (fun c => (65 <=? c) && (c <=? 90)) (ustr "ABCDEFGHIJKLMNOPQRSTUVWXYZ") = true) by (vm_compute; reflexivity).
    rewrite forallb_forall in K. specialize (K a J). cbn [fst] in *. congruence.
Qed.
Print Assumptions C58_names.
