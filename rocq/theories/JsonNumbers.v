(** * JsonNumbers: the texts of ints and floats are JSON numbers with the same value. *)
From Coq Require Import ZArith Reals Psatz Lia SpecFloat.
From Flocq Require Import Core BinarySingleNaN.
From Verif Require Import PyBase PyFloat PyFormat PyVal PyJson JsonSpec FormatSpec FormatProofs FloatProofs JsonFloat.
Local Open Scope list_scope.
Local Open Scope Z_scope.

(** Texts that cannot continue a number. *)
Definition ends (rest : list Z) : Prop :=
  match rest with [] => True | c :: _ => is_digit c = false /\ c <> 46 /\ c <> 101 /\ c <> 69 end.

Lemma digit_is c : digit c -> is_digit c = true.
Proof. unfold digit, is_digit. intros. apply andb_true_intro. split; apply Z.leb_le; lia. Qed.

Lemma take_digits_app ds rest : Forall digit ds ->
  match rest with [] => True | c :: _ => is_digit c = false end ->
  take_digits (ds ++ rest) = (ds, rest).
Proof.
  intros D R. induction ds as [|c r IH]; cbn [app take_digits].
  - destruct rest as [|c r]; [reflexivity|]. cbn. now rewrite R.
  - inversion D; subst. rewrite (digit_is c) by assumption. now rewrite IH.
Qed.

Lemma eat_no c s : match s with [] => True | x :: _ => x <> c end -> eat c s = None.
Proof. destruct s as [|x r]; [reflexivity|]. intros N. cbn. now rewrite (proj2 (Z.eqb_neq x c) N). Qed.

Lemma eat_yes c s : eat c (c :: s) = Some s.
Proof. cbn. now rewrite Z.eqb_refl. Qed.

(** The layout of a number: sign, integer digits, optional fraction, optional exponent. *)
Definition frac_text (f : option (list Z)) : list Z := match f with Some f => 46 :: f | None => [] end.
Definition exp_text (x : option (bool * list Z)) : list Z :=
  match x with Some (n, d) => 101 :: (if n then 45 else 43) :: d | None => [] end.
Definition exp_value (x : option (bool * list Z)) : Z :=
  match x with Some (true, d) => - decimal d | Some (false, d) => decimal d | None => 0 end.

Lemma take_frac_text f s : match f with Some d => Forall digit d /\ d <> [] | None => eat 46 s = None end ->
  match s with [] => True | c :: _ => is_digit c = false end ->
  take_frac (frac_text f ++ s) = Some (f, s).
Proof.
  intros F S. unfold take_frac. destruct f as [d|]; cbn [frac_text app].
  - destruct F as (F & N). rewrite eat_yes, take_digits_app by assumption. now destruct d.
  - now rewrite F.
Qed.

Lemma take_exp_text x s : match x with Some (_, d) => Forall digit d /\ d <> [] | None => eat 101 s = None /\ eat 69 s = None end ->
  match s with [] => True | c :: _ => is_digit c = false end ->
  take_exp (exp_text x ++ s) = Some (match x with Some _ => Some (exp_value x) | None => None end, s).
Proof.
  intros F S. unfold take_exp. destruct x as [[n d]|]; cbn [exp_text app].
  - destruct F as (F & N). rewrite eat_yes. destruct n.
    + rewrite eat_yes, take_digits_app by assumption. now destruct d.
    + rewrite (eat_no 45) by discriminate. rewrite eat_yes, take_digits_app by assumption. now destruct d.
  - destruct F as (-> & ->). reflexivity.
Qed.

Lemma take_number_text (neg : bool) ip f x rest :
  Forall digit ip -> int_ok ip = true -> ends rest ->
  match f with Some d => Forall digit d /\ d <> [] | None => True end ->
  match x with Some (_, d) => Forall digit d /\ d <> [] | None => True end ->
  take_number ((if neg then [45] else []) ++ ip ++ frac_text f ++ exp_text x ++ rest) =
  Some (match f, x with
        | None, None => JInt (if neg then - decimal ip else decimal ip)
        | _, _ => let d := match f with Some d => d | None => [] end in
                  JReal (real_of_decimal neg (decimal (ip ++ d)) (exp_value x - zlen d))
        end, rest).
Proof.
  intros I OK R F X. unfold take_number.
  assert (E : match eat 45 ((if neg then [45] else []) ++ ip ++ frac_text f ++ exp_text x ++ rest) with
              | Some r => (true, r) | None => (false, (if neg then [45] else []) ++ ip ++ frac_text f ++ exp_text x ++ rest) end
              = (neg, ip ++ frac_text f ++ exp_text x ++ rest)).
  { destruct neg; cbn [app]; [now rewrite eat_yes|]. destruct ip as [|c r]; [discriminate OK|].
    inversion I as [|? ? D]; subst. unfold digit in D. cbn [app]. rewrite eat_no; [reflexivity|]. lia. }
  rewrite E. clear E.
  assert (ER : match rest with [] => True | c :: _ => is_digit c = false end) by (destruct rest; [exact Logic.I|apply R]).
  assert (EX : match exp_text x ++ rest with [] => True | c :: _ => is_digit c = false end)
    by (destruct x as [[? ?]|]; cbn [exp_text app]; [reflexivity|exact ER]).
  rewrite take_digits_app; [|exact I|destruct f; cbn [frac_text app]; [reflexivity|exact EX]].
  rewrite OK. cbn [negb].
  rewrite take_frac_text; [| |exact EX].
  2:{ destruct f; [exact F|]. apply eat_no. destruct x as [[? ?]|]; cbn [exp_text app]; [discriminate|].
      destruct rest; [exact Logic.I|apply R]. }
  rewrite take_exp_text; [| |exact ER].
  2:{ destruct x as [[? ?]|]; [exact X|]. split; apply eat_no; (destruct rest; [exact Logic.I|apply R]). }
  destruct f, x; reflexivity.
Qed.

(** ** Ints *)
Lemma py_digits_int n : 0 <= n -> int_ok (py_digits n) = true.
Proof.
  intros N. destruct (py_digits_spec n N) as (F & NE & V & LZ).
  destruct (py_digits n) as [|c [|c' r]] eqn:E; [congruence|reflexivity|].
  cbn. specialize (LZ ltac:(discriminate)). cbn in LZ. now rewrite (proj2 (Z.eqb_neq _ _) LZ).
Qed.

Lemma int_reads z rest : ends rest -> take_number (py_int_str z ++ rest) = Some (JInt z, rest).
Proof.
  intros R. unfold py_int_str. destruct (Z.ltb_spec z 0) as [N|N].
  - destruct (py_digits_spec (- z) ltac:(lia)) as (F & NE & V & LZ).
    pose proof (take_number_text true (py_digits (- z)) None None rest F (py_digits_int (- z) ltac:(lia)) R Logic.I Logic.I) as T.
    cbn [frac_text exp_text app] in *. rewrite T. do 3 f_equal. change (- digit_value (py_digits (- z)) = z). rewrite V. lia.
  - destruct (py_digits_spec z ltac:(lia)) as (F & NE & V & LZ).
    pose proof (take_number_text false (py_digits z) None None rest F (py_digits_int z ltac:(lia)) R Logic.I Logic.I) as T.
    cbn [frac_text exp_text app] in *. rewrite T. do 3 f_equal. exact V.
Qed.

(** ** Floats *)
Lemma strip_zeros_spec l : exists n, l = repeat 48 n ++ strip_zeros l.
Proof.
  induction l as [|c r IH]; [now exists O|]. cbn [strip_zeros]. destruct IH as (n & E).
  destruct (Z.eq_dec c 48) as [->|N].
  - destruct r as [|c' r]; [now exists O|]. exists (S n). cbn [repeat app]. now rewrite <- E.
  - exists O. cbn [repeat app]. destruct r; destruct c as [|p|p]; try reflexivity;
    repeat (destruct p as [p|p|]; try reflexivity); congruence.
Qed.

Lemma decimal_app a b : decimal (a ++ b) = decimal a * 10 ^ zlen b + decimal b.
Proof. apply digit_value_app. Qed.
Lemma decimal_zeros n : decimal (repeat 48 n) = 0.
Proof. rewrite <- (app_nil_r (repeat 48 n)). unfold decimal. change (digit_value (repeat 48 n ++ []) = 0). now rewrite digit_value_zeros. Qed.
Lemma zlen_repeat' (c : Z) n : zlen (repeat c n) = Z.of_nat n.
Proof. unfold zlen. now rewrite repeat_length. Qed.

(** Digits without trailing zeros, the first one not zero. *)
Lemma stripped d : 0 < d -> let ds := py_digits d in let ss := rev (strip_zeros (rev ds)) in
  Forall digit ss /\ ss <> [] /\ hd 0 ss <> 48 /\ 0 < decimal ss /\ zlen ss <= zlen ds /\ d = decimal ss * 10 ^ (zlen ds - zlen ss).
Proof.
  intros D ds ss. destruct (py_digits_spec d ltac:(lia)) as (F & NE & V & LZ). fold ds in F, NE, V, LZ.
  destruct (strip_zeros_spec (rev ds)) as (n & E).
  assert (E' : ds = ss ++ repeat 48 n).
  { rewrite <- (rev_involutive ds), E, rev_app_distr. f_equal.
    clear. induction n; [reflexivity|]. cbn [repeat rev]. rewrite IHn. clear.
    induction n; [reflexivity|]. cbn. now rewrite IHn. }
  clearbody ss. clear E. rewrite E' in F. apply Forall_app in F. destruct F as (F & _).
  assert (VV : d = decimal ss * 10 ^ Z.of_nat n).
  { rewrite <- V, E'. change (decimal (ss ++ repeat 48 n) = decimal ss * 10 ^ Z.of_nat n).
    rewrite decimal_app, decimal_zeros, zlen_repeat'. lia. }
  assert (P : 0 < decimal ss).
  { pose proof (digit_value_bound ss F). change (digit_value ss) with (decimal ss) in H.
    destruct (Z.eq_dec (decimal ss) 0) as [Z|]; [rewrite Z in VV; lia|lia]. }
  assert (SN : ss <> []) by (intros ->; cbn in P; lia).
  assert (L : zlen ds = zlen ss + Z.of_nat n) by (rewrite E', zlen_app, zlen_repeat'; reflexivity).
  split; [exact F|]. split; [exact SN|]. split.
  { destruct ss as [|c r]; [congruence|]. cbn. rewrite E' in LZ. cbn [app hd] in LZ. apply LZ.
    intros [= -> X]. apply app_eq_nil in X. destruct X as (-> & _). cbn in P. lia. }
  split; [exact P|]. split; [lia|]. rewrite VV at 1. do 2 f_equal. lia.
Qed.

Lemma dec_R_shift m k e : 0 <= k -> dec_R (m * 10 ^ k) e = dec_R m (e + k).
Proof.
  intros K. unfold dec_R. rewrite mult_IZR, pow10_R, Rmult_assoc, <- bpow_plus by exact K. do 2 f_equal. lia.
Qed.
Lemma Forall_firstn' {A} (P : A -> Prop) n l : Forall P l -> Forall P (firstn n l).
Proof. intros F. rewrite <- (firstn_skipn n l) in F. now apply Forall_app in F. Qed.
Lemma Forall_skipn' {A} (P : A -> Prop) n l : Forall P l -> Forall P (skipn n l).
Proof. intros F. rewrite <- (firstn_skipn n l) in F. now apply Forall_app in F. Qed.
Lemma int_ok_hd ds : ds <> [] -> hd 0 ds <> 48 -> int_ok ds = true.
Proof. destruct ds as [|c [|c' r]]; [congruence|reflexivity|]. cbn. intros _ H. now rewrite (proj2 (Z.eqb_neq _ _) H). Qed.
Lemma hd_firstn (ds : list Z) n : (0 < n)%nat -> hd 0 (firstn n ds) = hd 0 ds.
Proof. destruct n; [lia|]. now destruct ds. Qed.

Lemma repr_text_reads (neg : bool) ss dp rest : Forall digit ss -> ss <> [] -> hd 0 ss <> 48 -> 0 < decimal ss -> ends rest ->
  exists m e, take_number ((if neg then [45] else []) ++ repr_text ss dp ++ rest) = Some (JReal (real_of_decimal neg m e), rest) /\
    0 < m /\ dec_R m e = dec_R (decimal ss) (dp - zlen ss).
Proof.
  intros F NE HD P R. unfold repr_text.
  assert (LS : 0 < zlen ss) by (destruct ss; [congruence|unfold zlen; cbn; lia]).
  destruct ((-4 <? dp) && (dp <=? 16)).
  - destruct (Z.leb_spec dp 0) as [D|D].
    + eexists _, _. split; [|split].
      * replace (([48; 46] ++ repeat 48 (Z.to_nat (- dp)) ++ ss) ++ rest)
          with ([48] ++ frac_text (Some (repeat 48 (Z.to_nat (- dp)) ++ ss)) ++ exp_text None ++ rest)
          by (cbn [frac_text exp_text app]; rewrite <- !app_assoc; reflexivity).
        rewrite take_number_text; [reflexivity|..]; auto.
        -- constructor; [unfold digit; lia|constructor].
        -- split; [|destruct ss; [congruence|intros X; apply app_eq_nil in X; destruct X; discriminate]].
           apply Forall_app. split; [|exact F]. apply Forall_repeat. unfold digit. lia.
      * rewrite !decimal_app, decimal_zeros. change (decimal [48]) with 0. lia.
      * cbn [exp_value]. rewrite !decimal_app, decimal_zeros, zlen_app, zlen_repeat'. change (decimal [48]) with 0.
        f_equal; lia.
    + destruct (Z.leb_spec (zlen ss) dp) as [L|L].
      * eexists _, _. split; [|split].
        -- replace ((ss ++ repeat 48 (Z.to_nat (dp - zlen ss)) ++ [46; 48]) ++ rest)
             with ((ss ++ repeat 48 (Z.to_nat (dp - zlen ss))) ++ frac_text (Some [48]) ++ exp_text None ++ rest)
             by (cbn [frac_text exp_text app]; rewrite <- !app_assoc; reflexivity).
           rewrite take_number_text; [reflexivity|..]; auto.
           ++ apply Forall_app. split; [exact F|]. apply Forall_repeat. unfold digit. lia.
           ++ apply int_ok_hd; [intros X; apply app_eq_nil in X; tauto|]. destruct ss; [congruence|exact HD].
           ++ split; [|discriminate]. constructor; [unfold digit; lia|constructor].
        -- rewrite !decimal_app, decimal_zeros, zlen_repeat'. change (decimal [48]) with 0. change (zlen [48]) with 1.
           pose proof (Z.pow_pos_nonneg 10 (Z.of_nat (Z.to_nat (dp - zlen ss))) ltac:(lia) ltac:(lia)). nia.
        -- rewrite !decimal_app, decimal_zeros, zlen_repeat'. change (decimal [48]) with 0. change (zlen [48]) with 1.
           cbn [exp_value]. rewrite !Z.add_0_r, !dec_R_shift by lia. f_equal. lia.
      * assert (SP : decimal (firstn (Z.to_nat dp) ss ++ skipn (Z.to_nat dp) ss) = decimal ss) by now rewrite firstn_skipn.
        eexists _, _. split; [|split].
        -- replace ((firstn (Z.to_nat dp) ss ++ [46] ++ skipn (Z.to_nat dp) ss) ++ rest)
             with (firstn (Z.to_nat dp) ss ++ frac_text (Some (skipn (Z.to_nat dp) ss)) ++ exp_text None ++ rest)
             by (cbn [frac_text exp_text app]; rewrite <- !app_assoc; reflexivity).
           rewrite take_number_text; [reflexivity|..]; auto.
           ++ now apply Forall_firstn'.
           ++ apply int_ok_hd; [|rewrite hd_firstn by lia; exact HD].
              intros X. apply (f_equal (@length Z)) in X. rewrite firstn_length in X. unfold zlen in L. cbn in X. lia.
           ++ split; [now apply Forall_skipn'|].
              intros X. apply (f_equal (@length Z)) in X. rewrite skipn_length in X. unfold zlen in L. cbn in X. lia.
        -- rewrite SP. exact P.
        -- rewrite SP. cbn [exp_value]. f_equal. unfold zlen in *. rewrite skipn_length. lia.
  - destruct ss as [|c r]; [congruence|]. set (x := dp - 1).
    destruct (py_digits_spec (Z.abs x) ltac:(lia)) as (FX & NX & VX & _).
    set (dx := pad_left 48 2 (py_digits (Z.abs x))).
    assert (FD : Forall digit dx /\ dx <> []).
    { unfold dx, pad_left. split.
      - apply Forall_app. split; [|exact FX]. apply Forall_repeat. unfold digit. lia.
      - intros X. apply app_eq_nil in X. tauto. }
    assert (VD : exp_value (Some (x <? 0, dx)) = x).
    { cbn [exp_value]. assert (decimal dx = Z.abs x).
      { unfold dx, pad_left, decimal. change (digit_value (repeat 48 (Z.to_nat (2 - zlen (py_digits (Z.abs x)))) ++ py_digits (Z.abs x)) = Z.abs x).
        now rewrite digit_value_zeros. }
      destruct (Z.ltb_spec x 0); lia. }
    inversion F as [|? ? Fc Fr]; subst.
    eexists _, _. split; [|split].
    + replace ((firstn 1 (c :: r) ++ (if 1 <? zlen (c :: r) then 46 :: skipn 1 (c :: r) else []) ++ [101] ++ (if x <? 0 then 45 else 43) :: dx) ++ rest)
        with ([c] ++ frac_text (if 1 <? zlen (c :: r) then Some r else None) ++ exp_text (Some (x <? 0, dx)) ++ rest).
      2:{ cbn [firstn skipn exp_text app]. destruct (1 <? zlen (c :: r)); cbn [frac_text app]; rewrite <- ?app_assoc; reflexivity. }
      rewrite take_number_text; auto.
      2:{ destruct (Z.ltb_spec 1 (zlen (c :: r))) as [L|L]; [|exact Logic.I]. split; [exact Fr|]. intros ->. unfold zlen in L. cbn in L. lia. }
      destruct (Z.ltb_spec 1 (zlen (c :: r))) as [L|L]; [reflexivity|].
      assert (r = []) as -> by (destruct r; [reflexivity|unfold zlen in L; cbn [length] in L; lia]).
      cbn [app]. reflexivity.
    + destruct (Z.ltb_spec 1 (zlen (c :: r))) as [L|L]; cbn [app].
      * exact P.
      * assert (r = []) as -> by (destruct r; [reflexivity|unfold zlen in L; cbn [length] in L; lia]). exact P.
    + rewrite VD. unfold x. destruct (Z.ltb_spec 1 (zlen (c :: r))) as [L|L]; cbn [app].
      * f_equal. unfold zlen. cbn [length]. lia.
      * assert (r = []) as -> by (destruct r; [reflexivity|unfold zlen in L; cbn [length] in L; lia]).
        f_equal. unfold zlen. cbn [length]. lia.
Qed.

Lemma repr_pos_reads (neg : bool) s m e rest : valid_binary fprec femax (S754_finite s m e) = true -> ends rest ->
  take_number ((if neg then [45] else []) ++ repr_pos (Zpos m) e ++ rest) = Some (JReal (S754_finite neg m e), rest).
Proof.
  intros V R. pose proof (shortest_ok s m e V) as S. unfold repr_pos. destruct (shortest (Z.pos m) e) as [d x].
  destruct S as (D & S). pose proof (stripped d D) as ST. cbv zeta in ST.
  set (ds := py_digits d) in *. set (ss := rev (strip_zeros (rev ds))) in *.
  destruct ST as (F & NE & HD & P & L & VD).
  destruct (repr_text_reads neg ss (x + zlen ds) rest F NE HD P R) as (m' & e' & -> & M' & E').
  do 3 f_equal. unfold real_of_decimal. rewrite (proj2 (Z.eqb_neq m' 0)) by lia.
  rewrite (f_of_dec_ext d x m' e' false m e D M'); [now destruct neg| |exact S].
  rewrite E'. rewrite VD at 1. rewrite dec_R_shift by lia. f_equal. lia.
Qed.

Lemma float_reads x rest : is_finite_SF x = true -> valid_binary fprec femax x = true -> ends rest ->
  take_number (json_float x ++ rest) = Some (JReal x, rest).
Proof.
  intros F V R. destruct x as [s| | |s m e]; try discriminate F; cbn [json_float].
  - rewrite <- app_assoc.
    change ([48; 46; 48] ++ rest) with ([48] ++ frac_text (Some [48]) ++ exp_text None ++ rest).
    rewrite take_number_text; auto.
    + do 3 f_equal. unfold real_of_decimal. cbn. now destruct s.
    + constructor; [unfold digit; lia|constructor].
    + split; [|discriminate]. constructor; [unfold digit; lia|constructor].
  - rewrite <- app_assoc. now apply repr_pos_reads with s.
Qed.
