(** * LosslessSpec: messages that differ in nothing but reserved bits and padding (C76). *)
From Verif Require Import PyBase BitsSpec MessageSpec EphSpec BaseSpec MsmModel MsmSpec DocumentsSpec.
Local Open Scope string_scope.
Local Open Scope list_scope.
Local Open Scope Z_scope.

(** An observation message without its seven reserved bits. *)
Definition unreserved (m : msm) : msm :=
  {| m_gnss := m_gnss m; m_type := m_type m; m_station := m_station m; m_epoch := m_epoch m; m_multiple := m_multiple m;
     m_iods := m_iods m; m_reserved := 0; m_steering := m_steering m; m_ext_clock := m_ext_clock m; m_smooth := m_smooth m;
     m_smooth_int := m_smooth_int m; m_sigs := m_sigs m; m_rows := m_rows m |}.

(** The same message: the same type, and the same values of all its fields (1041 without its two
    flags, a schedule with the last announcement of each message number); observations are the
    same bits, but for the reserved ones. *)
Definition same_message (x y : message) : Prop :=
  match x, y with
  | MEph t p, MEph t' p' => t = t' /\ forall n z, kept t n ->
      (In (n, z) (fields_of (layout t) (bits_of p)) <-> In (n, z) (fields_of (layout t) (bits_of p')))
  | MPos t p, MPos t' p' => t = t' /\ forall n z,
      In (n, z) (fields_of (rp_layout t) (bits_of p)) <-> In (n, z) (fields_of (rp_layout t) (bits_of p'))
  | MText m, MText m' => m = m'
  | MSched id mjd sec leap l, MSched id' mjd' sec' leap' l' =>
      id = id' /\ mjd = mjd' /\ sec = sec' /\ leap = leap' /\ zlen l = zlen l' /\ forall n, announced l n = announced l' n
  | MBias id c _ b, MBias id' c' _ b' => id = id' /\ c = c' /\ b = b'
  | MMsm m, MMsm m' => msm_bits (unreserved m) = msm_bits (unreserved m')
  | _, _ => False
  end.
