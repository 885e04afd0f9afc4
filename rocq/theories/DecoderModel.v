(** * DecoderModel: model of the dispatching half of decoder_top.py and of the sub-decoder
    classes of sub_decoders/*.py. *)
From Verif Require Import PyBase PyDict PyFloat PyVal BitsModel FramerModel TablesModel MsmModel EphModel BaseModel.
Local Open Scope string_scope.
Local Open Scope list_scope.
Local Open Scope Z_scope.

(** Objects the sub-decoders return. (gnss_types/, the classes named in decoder_top.py:46-105) *)
Inductive rtcm_obj := OMsm (r : msm_result) | OPy (o : pyobj).

(** [type(obj)]; [type(obj)], tested in decoder_top.py:209 *)
Definition class_of (o : rtcm_obj) : string :=
  match o with
  | OMsm (MsmBare (Bare4567 _ _ _ _)) => "BareObservablesMSM4567"
  | OMsm (MsmBare (Bare123 _ _ _ _)) => "BareObservablesMSM123"
  | OMsm (MsmScaled _) => "ObservablesMSM"
  | OPy p => po_class p
  end.

(** Superclasses, among the classes the decoder tests for: gnss_types/base_station.py:46,
    64, 73. *)
Definition superclasses (c : string) : list string :=
  if String.eqb c "BaseRPH" then ["BaseRPH"; "BaseRP"]
  else if String.eqb c "BaseADSN" then ["BaseADSN"; "BaseAD"]
  else if String.eqb c "BaseADSNRC" then ["BaseADSNRC"; "BaseADSN"; "BaseAD"]
  else [c].
(** [isinstance(o, cls)]; None is an instance of none of these classes. (decoder_top.py:209) *)
Definition isinstance (o : option rtcm_obj) (cls : string) : bool :=
  match o with None => false | Some o => existsb (String.eqb cls) (superclasses (class_of o)) end.

(** decoder_top.py:34-128 [SubDecoderInterface].  [sd_decode = None] is the stub of lines
    107-110.  The attributes are not changed after the registration. *)
Record subdec := {
  sd_subset : string;
  sd_spec : list (Z * string);           (* io_spec *)
  sd_actual : list Z;                    (* actual_messages *)
  sd_decode : option (list Z -> res (option rtcm_obj)) }.

(** decoder_top.py:46-105: the numbers of the seven systems *)
Definition by_gnss (l : list Z) : list Z := flat_map (fun i => map (fun m => m + i * 10) l) (zrange 0 7).

(** decoder_top.py:46-105 *)
Definition msm47_spec (bare : bool) : list (Z * string) :=
  map (fun m => (m, if bare then "BareObservablesMSM4567" else "ObservablesMSM"))
    (by_gnss [1074; 1075; 1076; 1077]).
Definition msm13_spec (bare : bool) : list (Z * string) :=
  map (fun m => (m, if bare then "BareObservablesMSM123" else "ObservablesMSM"))
    (by_gnss [1071; 1072; 1073]).
Definition eph_spec : list (Z * string) :=
  [(1045, "EphGALF"); (1046, "EphGALI"); (1020, "EphGLO"); (1019, "EphGPS"); (1044, "EphQZS");
   (1042, "EphBDS"); (1041, "EphNAVIC")].
Definition base_spec : list (Z * string) :=
  [(1005, "BaseRP"); (1006, "BaseRPH"); (1007, "BaseAD"); (1008, "BaseADSN"); (1033, "BaseADSNRC");
   (1013, "BaseSP"); (1029, "BaseTS"); (1230, "BaseGLBS")].

Definition wrap_msm (r : res (option msm_result)) : res (option rtcm_obj) :=
  o <- r ;; Ok (option_map OMsm o).
Definition wrap_py (r : res (option pyobj)) : res (option rtcm_obj) :=
  o <- r ;; Ok (option_map OPy o).

(** sub_decoders/RTCM_MSM.py:731-742 [SubdecoderMSM4567] *)
Definition sub_msm4567 (bare : bool) : subdec :=
  {| sd_subset := "MSM47O"; sd_spec := msm47_spec bare; sd_actual := map fst (msm47_spec bare);
     sd_decode := Some (fun buf => wrap_msm (decode_msm17 bare buf)) |}.
(** sub_decoders/RTCM_MSM.py:745-756 [SubdecoderMSM123] *)
Definition sub_msm123 (bare : bool) : subdec :=
  {| sd_subset := "MSM13O"; sd_spec := msm13_spec bare; sd_actual := map fst (msm13_spec bare);
     sd_decode := Some (fun buf => wrap_msm (decode_msm17 bare buf)) |}.
(** sub_decoders/RTCM_EPH.py:723-765 [SubdecoderEph] *)
Definition sub_eph (bare : bool) : subdec :=
  {| sd_subset := "EPH"; sd_spec := eph_spec; sd_actual := eph_msgList;
     sd_decode := Some (fun buf => wrap_py (subdecoder_eph bare buf)) |}.
(** sub_decoders/RTCM_BASE.py:432-472 [SubdecoderBaseStationData] *)
Definition sub_base (bare : bool) : subdec :=
  {| sd_subset := "BASE"; sd_spec := base_spec; sd_actual := base_msgList;
     sd_decode := Some (fun buf => wrap_py (subdecoder_base bare buf)) |}.

(** decoder_top.py:158-168 [DecoderTop.__init__], without the framing half (FramerModel). *)
Record decoder := {
  d_decoders : list (string * subdec);
  d_attempts : Z;       (* __dec_attempts *)
  d_succeeded : Z }.    (* __dec_succeeded *)
(** decoder_top.py:158-165 *)
Definition decoder_init : decoder := {| d_decoders := []; d_attempts := 0; d_succeeded := 0 |}.

(** decoder_top.py:172-190 [register_decoder] (of a SubDecoderInterface) *)
Definition register_decoder (st : decoder) (io : subdec) : decoder * bool :=
  match sd_decode io with
  | None => (st, false)
  | Some _ =>
      if zlen (sd_actual io) =? 0 then (st, false)
      else ({| d_decoders := sset (d_decoders st) (sd_subset io) io;
               d_attempts := d_attempts st; d_succeeded := d_succeeded st |}, true)
  end.

(** decoder_top.py:205 [(num in dec.io_spec.keys()) and (num in dec.actual_messages)] *)
Definition accepts (num : option Z) (dec : subdec) : bool :=
  match num with
  | None => false
  | Some n => existsb (Z.eqb n) (map fst (sd_spec dec)) && existsb (Z.eqb n) (sd_actual dec)
  end.

(** decoder_top.py:193-218 [decode], undecorated.  The new state is returned also when an
    exception leaves the method.  TEST_DATA_GRABBER is None. *)
Definition decode_body (st : decoder) (msg : list Z) : res (option rtcm_obj) * decoder :=
  match mnum msg with
  | Err e => (Err e, st)
  | Ok num =>
      match find (accepts num) (map snd (d_decoders st)) with
      | None => (Ok None, st)
      | Some dec =>
          let st := {| d_decoders := d_decoders st; d_attempts := d_attempts st + 1;
                       d_succeeded := d_succeeded st |} in
          match (match sd_decode dec with Some f => f msg | None => Err ENotImpl end) with
          | Err e => (Err e, st)
          | Ok rv =>
              match (match num with Some n => zindex (sd_spec dec) n | None => Err EKey end) with
              | Err e => (Err e, st)
              | Ok cls =>
                  if negb (isinstance rv cls) then (Err EDecode, st)
                  else (Ok rv, {| d_decoders := d_decoders st; d_attempts := d_attempts st;
                                  d_succeeded := d_succeeded st + 1 |})
              end
          end
      end
  end.

(** decoder_top.py:138-152 [catch_decoder_exceptions] *)
Definition decode (st : decoder) (msg : list Z) : res (option rtcm_obj) * decoder :=
  match decode_body st msg with
  | (Err e, st') => if is_exception e then (Ok None, st') else (Err e, st')
  | r => r
  end.

(** decoder_top.py:326-334 *)
Definition dec_errors (st : decoder) : Z := d_attempts st - d_succeeded st.
Definition dec_attempts (st : decoder) : Z := d_attempts st.
