(** * PropertiesStream: final statements for C01-C11 (bits, CRC, framing). *)
From Verif Require Import PyBase BitsModel BitsSpec BitsProofs CrcModel CrcSpec CrcProofs
  FramerModel FramerSpec FramerProofs FramerTheorems TestData.

(** ** C01: unsigned field extraction *)
Theorem C01_getbitu_exact : forall buf pos len,
  bytes_ok buf ->
  (field_inside buf pos len /\ getbitu buf pos len = Ok (uval (field buf pos len)))
  \/ (~ field_inside buf pos len /\ getbitu buf pos len = Err EBits).
Proof. exact getbitu_spec. Qed.
Print Assumptions C01_getbitu_exact.

Example C01_nonvacuous :
  bytes_ok sample_1005 /\ field_inside sample_1005 37 38 /\
  getbitu sample_1005 24 12 = Ok 1005 /\ ~ field_inside sample_1005 190 38.
Proof.
  unfold field_inside. change (8 * zlen sample_1005) with 200.
  split; [apply bytes_okb_ok; vm_compute; reflexivity|].
  split; [lia|]. split; [vm_compute; reflexivity|lia].
Qed.

(** ** C02: signed and sign-magnitude extraction *)
Theorem C02_getbits_exact : forall buf pos len,
  bytes_ok buf -> field_inside buf pos len ->
  getbits buf pos len = Ok (sval (field buf pos len)) /\
  - 2 ^ (len - 1) <= sval (field buf pos len) < 2 ^ (len - 1).
Proof.
  intros buf pos len Hb Hf. split; [exact (getbits_ok buf pos len Hb Hf)|].
  pose proof (sval_range (field buf pos len) (field_nonnil _ _ _ Hf)) as H.
  rewrite (field_length _ _ _ Hf) in H. exact H.
Qed.
Print Assumptions C02_getbits_exact.

Theorem C02_getbitS_exact : forall buf pos len,
  bytes_ok buf -> field_inside buf pos len ->
  getbitS buf pos len = Ok (smval (field buf pos len)) /\
  Z.abs (smval (field buf pos len)) < 2 ^ (len - 1).
Proof.
  intros buf pos len Hb Hf. split; [exact (getbitS_ok buf pos len Hb Hf)|].
  pose proof (smval_range (field buf pos len) (field_nonnil _ _ _ Hf)) as H.
  rewrite (field_length _ _ _ Hf) in H. exact H.
Qed.
Print Assumptions C02_getbitS_exact.

Theorem C02_raise_together : forall buf pos len,
  ~ field_inside buf pos len ->
  getbitu buf pos len = Err EBits /\ getbits buf pos len = Err EBits /\
  exists e, getbitS buf pos len = Err e.
Proof.
  intros buf pos len H. split; [exact (getbitu_err _ _ _ H)|].
  split; [exact (getbits_err _ _ _ H)|exact (getbitS_err _ _ _ H)].
Qed.
Print Assumptions C02_raise_together.

Example C02_nonvacuous : getbits [0xF0; 0x0F] 0 12 = Ok (-256) /\ getbitS [0xF0; 0x0F] 0 12 = Ok (-1792).
Proof. split; vm_compute; reflexivity. Qed.

(** ** C03: bit reversal *)
Theorem C03_revbitu_exact : forall a len ofs,
  0 <= len -> 0 <= ofs -> len + ofs <= 128 ->
  exists r, revbitu a len ofs = Ok r /\ 0 <= r < 2 ^ len /\
  (forall i, 0 <= i -> Z.testbit r i = (i <? len) && Z.testbit a (ofs + len - 1 - i)) /\
  revbitu r len 0 = Ok (Z.shiftr a ofs mod 2 ^ len).
Proof.
  intros a len ofs H1 H2 H3. destruct (revbitu_ok a len ofs H1 H2 H3) as (r & E & Hb).
  exists r. split; [exact E|]. split; [exact (revbitu_nonneg _ _ _ _ H1 H2 H3 E)|].
  split; [exact Hb|exact (revbitu_involutive _ _ _ _ H1 H2 H3 E)].
Qed.
Print Assumptions C03_revbitu_exact.

Theorem C03_revbitu_rejects : forall a len ofs, 128 < len + ofs -> revbitu a len ofs = Err EBits.
Proof. exact revbitu_err. Qed.
Print Assumptions C03_revbitu_rejects.

Theorem C03_revbits_exact : forall a len ofs,
  1 <= len -> 0 <= ofs -> len + ofs <= 128 ->
  exists r, revbitu a len ofs = Ok r /\
    revbits a len ofs = Ok (if Z.testbit a ofs then r - 2 ^ len else r).
Proof. exact revbits_ok. Qed.
Print Assumptions C03_revbits_exact.

Example C03_nonvacuous : revbitu 0xB4 6 2 = Ok 45 /\ revbits 0xB4 6 2 = Ok (-19).
Proof. split; vm_compute; reflexivity. Qed.

(** ** C04: the CRC is the polynomial remainder *)
Theorem C04_crc_is_remainder : forall data, bytes_ok data ->
  exists r, crc_calc data = Ok r /\ is_crc24q data r /\ forall r', is_crc24q data r' -> r' = r.
Proof.
  intros data Hb. destruct (crc_calc_correct data Hb) as (r & E & S).
  exists r. split; [exact E|]. split; [exact S|].
  intros r' S'. exact (is_crc24q_unique data r' r S' S).
Qed.
Print Assumptions C04_crc_is_remainder.

Example C04_nonvacuous : crc_calc (firstn 22 sample_1005) = Ok 0x2780E5.
Proof. vm_compute. reflexivity. Qed.

(** ** C05: error detection *)
Theorem C05_errors_detected : forall f f' t,
  valid_frame f -> bytes_ok f' -> bytes_ok t -> length f' = length f ->
  firstn 3 f' = firstn 3 f ->
  Nat.odd (weight (error_bits f f')) = true
   \/ weight (error_bits f f') = 2%nat
   \/ (weight (error_bits f f') <> 0%nat /\ burst 24 (error_bits f f')) ->
  mcrc (f' ++ t) = Ok (Some false).
Proof. exact mcrc_detects. Qed.
Print Assumptions C05_errors_detected.

Theorem C05_valid_accepted : forall f t, valid_frame f -> bytes_ok t -> mcrc (f ++ t) = Ok (Some true).
Proof. exact mcrc_accepts. Qed.
Print Assumptions C05_valid_accepted.

Example sample_1005_valid : valid_frame sample_1005.
Proof. apply valid_frame_check; vm_compute; reflexivity. Qed.

Example C05_nonvacuous :
  let f' := firstn 7 sample_1005 ++ [134] ++ skipn 8 sample_1005 in
  weight (error_bits sample_1005 f') = 1%nat /\ mcrc f' = Ok (Some false).
Proof. split; vm_compute; reflexivity. Qed.

(** ** C06: framing soundness *)
Theorem C06_framing_sound : forall chunks st ms,
  Forall bytes_ok chunks -> feed framer_init chunks = Ok (st, ms) ->
  Forall valid_frame ms /\ embedded ms (concat chunks).
Proof. exact feed_sound. Qed.
Print Assumptions C06_framing_sound.

(** The reference segmentation is a function of the byte stream, and the framer computes it. *)
Theorem C06_framing_reference : forall chunks, Forall bytes_ok chunks ->
  exists st segs rest,
    feed framer_init chunks = Ok (st, frames_of segs) /\
    scans (concat chunks) segs rest /\
    (forall segs' rest', scans (concat chunks) segs' rest' -> segs = segs' /\ rest = rest').
Proof.
  intros chunks H. destruct (feed_reference chunks H) as (st & segs & rest & E & S & _).
  exists st, segs, rest. split; [exact E|]. split; [exact S|].
  exact (scans_functional _ _ _ S).
Qed.
Print Assumptions C06_framing_reference.

Example C06_nonvacuous : exists st,
  feed framer_init [firstn 10 (sample_1005 ++ [1; 2] ++ sample_1006);
                    skipn 10 (sample_1005 ++ [1; 2] ++ sample_1006)]
  = Ok (st, [sample_1005; sample_1006]).
Proof. eexists. vm_compute. reflexivity. Qed.

(** ** C07: chunking does not matter *)
Theorem C07_chunk_invariance : forall chunks1 chunks2,
  Forall bytes_ok chunks1 -> Forall bytes_ok chunks2 -> concat chunks1 = concat chunks2 ->
  exists st1 st2 ms,
    feed framer_init chunks1 = Ok (st1, ms) /\ feed framer_init chunks2 = Ok (st2, ms) /\
    fr_errs st1 = fr_errs st2.
Proof. exact feed_chunking. Qed.
Print Assumptions C07_chunk_invariance.

Example C07_nonvacuous : exists st,
  feed framer_init (map (fun b => [b]) (sample_1005 ++ [1; 2] ++ sample_1006))
  = Ok (st, [sample_1005; sample_1006]) /\ fr_errs st = 1.
Proof. eexists. vm_compute. split; reflexivity. Qed.

(** ** C08: nothing is lost on clean or padded streams *)
Theorem C08_padded_streams : forall gfs last_gap chunks,
  Forall (fun gf => no_preamble (fst gf) /\ valid_frame (snd gf)) gfs ->
  no_preamble last_gap ->
  concat chunks = padded_stream gfs last_gap ->
  exists st, feed framer_init chunks = Ok (st, map snd gfs) /\ fr_errs st = inner_gaps gfs.
Proof. exact feed_padded. Qed.
Print Assumptions C08_padded_streams.

Example C08_nonvacuous :
  Forall (fun gf => no_preamble (fst gf) /\ valid_frame (snd gf))
         [([7; 8], sample_1005); ([9], sample_1005)] /\ no_preamble [1; 2; 3].
Proof.
  assert (N : forall l, forallb (fun b => (0 <=? b) && (b <? 256) && negb (b =? 0xD3)) l = true ->
              no_preamble l).
  { intros l H. rewrite forallb_forall in H. split.
    - apply Forall_forall. intros x Hx. specialize (H x Hx). unfold byte_ok. lia.
    - intros Hin. specialize (H _ Hin). discriminate. }
  repeat constructor; try (apply N; reflexivity); try apply sample_1005_valid;
    try (cbn; intuition discriminate).
Qed.

(** ** C09: resynchronisation *)
Theorem C09_resync : forall chunks p f q,
  Forall bytes_ok chunks -> concat chunks = p ++ f ++ q -> valid_frame f ->
  1028 <= zlen f + zlen q ->
  exists st ms, feed framer_init chunks = Ok (st, ms) /\
  ((exists ms1 ms2, ms = ms1 ++ f :: ms2 /\ embedded ms1 p) \/
   (exists a g b, concat chunks = a ++ g ++ b /\ In g ms /\
        zlen a < zlen p < zlen a + zlen g)).
Proof. exact feed_resync. Qed.
Print Assumptions C09_resync.

Example C09_nonvacuous :
  valid_frame sample_1005 /\ 1028 <= zlen sample_1005 + zlen (repeat 0 (Z.to_nat 1003)).
Proof. split; [exact sample_1005_valid|vm_compute; congruence]. Qed.

(** The last clause of C09 ("at end of file every complete valid frame has been returned")
    is false: three bytes imitating a header swallow a following valid frame. *)
Theorem C09_end_of_file_refuted : exists stream p f q st,
  bytes_ok stream /\ stream = p ++ f ++ q /\ valid_frame f /\
  feed framer_init [stream] = Ok (st, []).
Proof.
  exists ([0xD3; 0x03; 0xFF] ++ sample_1005), [0xD3; 0x03; 0xFF], sample_1005, [],
    (mkFramer ([0xD3; 0x03; 0xFF] ++ sample_1005) false false 0).
  split; [|split; [|split]].
  - apply bytes_okb_ok; vm_compute; reflexivity.
  - now rewrite app_nil_r.
  - exact sample_1005_valid.
  - vm_compute. reflexivity.
Qed.
Print Assumptions C09_end_of_file_refuted.

(** ** C10: totality and bounded memory *)
Theorem C10_total_and_bounded : forall chunks, Forall bytes_ok chunks ->
  exists st ms, feed framer_init chunks = Ok (st, ms) /\ zlen (fr_tail st) <= 1028.
Proof.
  intros chunks H. destruct (feed_reference chunks H) as (st & segs & rest & E & _ & _ & L).
  exists st, (frames_of segs). split; [exact E|exact L].
Qed.
Print Assumptions C10_total_and_bounded.

Example C10_bound_is_reached : exists st,
  feed framer_init [[0xD3; 0x03; 0xFF] ++ repeat 0 (Z.to_nat 1025)] = Ok (st, []) /\ zlen (fr_tail st) = 1028.
Proof. eexists. vm_compute. split; reflexivity. Qed.

(** ** C11: parse_errors is exact *)
Theorem C11_parse_errors_exact : forall chunks, Forall bytes_ok chunks ->
  exists st segs rest,
    feed framer_init chunks = Ok (st, frames_of segs) /\
    scans (concat chunks) segs rest /\
    fr_errs st = interrupted_messages segs.
Proof.
  intros chunks H. destruct (feed_reference chunks H) as (st & segs & rest & E & S & F & _).
  exists st, segs, rest. split; [exact E|]. split; [exact S|exact F].
Qed.
Print Assumptions C11_parse_errors_exact.

(** Conformance tests on the repository's own streams (not proofs of anything general). *)
Example stream_ref3 : exists st a b c, feed framer_init [ref3] = Ok (st, [a; b; c]) /\ fr_errs st = 0.
Proof. do 4 eexists. vm_compute. split; reflexivity. Qed.
Example stream_ref3_before : exists st a b c, feed framer_init [ref3_before] = Ok (st, [a; b; c]) /\ fr_errs st = 0.
Proof. do 4 eexists. vm_compute. split; reflexivity. Qed.
Example stream_ref3_after : exists st a b c, feed framer_init [ref3_after] = Ok (st, [a; b; c]) /\ fr_errs st = 0.
Proof. do 4 eexists. vm_compute. split; reflexivity. Qed.
