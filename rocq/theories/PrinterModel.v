(** * PrinterModel: model of printer_top.py, of the constructors of the two printers and of
    converter_top.py. *)
From Verif Require Import PyBase PyDict PyFloat PyVal BitsModel FramerModel MsmModel DecoderModel MargoModel JsonModel.
Local Open Scope string_scope.
Local Open Scope list_scope.
Local Open Scope Z_scope.

(** ** printer_top.py:23-74: classes to be supported, by output format *)
Definition eph_classes : list string :=
  ["EphGPS"; "EphGLO"; "EphBDS"; "EphGALF"; "EphGALI"; "EphNAVIC"; "EphQZS"].
Definition base_classes : list string :=
  ["BaseRP"; "BaseRPH"; "BaseAD"; "BaseADSN"; "BaseADSNRC"; "BaseSP"; "BaseTS"; "BaseGLBS"].
Definition MARGO_SPECS : list (string * list string) :=
  [("LEGO", []); ("MSM13O", ["ObservablesMSM"]); ("MSM47O", ["ObservablesMSM"]); ("EPH", []); ("BASE", [])].
Definition JSON_SPECS : list (string * list string) :=
  [("LEGO", []); ("MSM13O", ["BareObservablesMSM123"; "ObservablesMSM"]);
   ("MSM47O", ["BareObservablesMSM4567"; "ObservablesMSM"]); ("EPH", eph_classes); ("BASE", base_classes)].
Definition JARGO_SPECS : list (string * list string) :=
  [("LEGO", []); ("MSM13O", []); ("MSM47O", []); ("EPH", eph_classes); ("BASE", base_classes)].
Definition SPECS_LIST : list (string * list (string * list string)) :=
  [("MARGO", MARGO_SPECS); ("JSON", JSON_SPECS); ("JARGO", JARGO_SPECS)].

(** printer_top.py:97-112 [make_specs]; a set is a list here (only membership is used). *)
Definition make_specs (oformat : string) : res (list string) :=
  match sget SPECS_LIST oformat with
  | Some specs => Ok (flat_map snd specs)
  | None => Err EAssert
  end.

(** ** PrinterTop *)
Section Top.
(** Everything the sub-printers keep: their own state and the files. *)
Variable W : Type.

(** printer_top.py:77-122 [SubPrinterInterface]; [None] is a stub.  [sp_id] is the identity of
    the object (sets of interfaces compare by identity).  What [print] does to the state is
    returned also when it raises. *)
Record subprinter := {
  sp_id : nat;
  sp_format : string;
  sp_print : option (W -> rtcm_obj -> W * res unit);
  sp_close : option (W -> W * res unit);
  sp_data : list string;       (* data_spec *)
  sp_actual : list string }.   (* actual_spec *)

(** printer_top.py:137-146 *)
Record printer_top := {
  pt_format : string;
  pt_printers : list subprinter;
  pt_attempts : Z;
  pt_succeeded : Z }.
Definition printer_init : printer_top :=
  {| pt_format := "UNDEF"; pt_printers := []; pt_attempts := 0; pt_succeeded := 0 |}.

(** printer_top.py:152-160 [format.setter] *)
Definition set_format (st : printer_top) (f : string) : printer_top :=
  {| pt_format := match sget SPECS_LIST f with Some _ => f | None => "" end;
     pt_printers := pt_printers st; pt_attempts := pt_attempts st; pt_succeeded := pt_succeeded st |}.
(** printer_top.py:162-165 [exist] *)
Definition pt_exist (st : printer_top) : bool :=
  negb (String.eqb (pt_format st) "") && negb (String.eqb (pt_format st) "UNDEF").
(** printer_top.py:167-170 [ready] *)
Definition pt_ready (st : printer_top) : bool :=
  pt_exist st && negb (zlen (pt_printers st) =? 0).
(** printer_top.py:182-185 [errors] *)
Definition pt_errors (st : printer_top) : Z := pt_attempts st - pt_succeeded st.

(** printer_top.py:187-222 [add_subprinter] (of a SubPrinterInterface) *)
Definition add_subprinter (st : printer_top) (io : subprinter) : printer_top * bool :=
  if negb (pt_exist st) then (st, false)
  else match sp_print io, sp_close io with
  | Some _, Some _ =>
      if zlen (sp_actual io) =? 0 then (st, false)
      else ({| pt_format := pt_format st;
               pt_printers := if existsb (fun p => Nat.eqb (sp_id p) (sp_id io)) (pt_printers st)
                              then pt_printers st else pt_printers st ++ [io];
               pt_attempts := pt_attempts st; pt_succeeded := pt_succeeded st |}, true)
  | _, _ => (st, false)
  end.

(** printer_top.py:230 *)
Definition takes (cls : string) (p : subprinter) : bool :=
  existsb (String.eqb cls) (sp_data p) && existsb (String.eqb cls) (sp_actual p).

(** printer_top.py:224-236 [print], undecorated.  [ord] is the order in which the set of printers
    is walked. *)
Definition print_body (ord : list subprinter -> list subprinter) (st : printer_top) (w : W) (x : rtcm_obj)
  : printer_top * W * res unit :=
  match find (takes (class_of x)) (ord (pt_printers st)) with
  | None => (st, w, Ok tt)
  | Some p =>
      let st := {| pt_format := pt_format st; pt_printers := pt_printers st;
                   pt_attempts := pt_attempts st + 1; pt_succeeded := pt_succeeded st |} in
      match (match sp_print p with Some f => f w x | None => (w, Err ENotImpl) end) with
      | (w, Err e) => (st, w, Err e)
      | (w, Ok _) =>
          ({| pt_format := pt_format st; pt_printers := pt_printers st;
              pt_attempts := pt_attempts st; pt_succeeded := pt_succeeded st + 1 |}, w, Ok tt)
      end
  end.

(** printer_top.py:125-134 [catch_printer_asserts].  (The assertions of the printers all have a
    message, so [ae.args[0]] exists.) *)
Definition top_print (ord : list subprinter -> list subprinter) (st : printer_top) (w : W) (x : rtcm_obj)
  : printer_top * W * res unit :=
  match print_body ord st w x with
  | (st, w, Err EAssert) => (st, w, Ok tt)
  | r => r
  end.

(** printer_top.py:238-242 [close] *)
Fixpoint close_all (l : list subprinter) (w : W) : W * res unit :=
  match l with
  | [] => (w, Ok tt)
  | p :: r => match (match sp_close p with Some f => f w | None => (w, Err ENotImpl) end) with
              | (w, Err e) => (w, Err e)
              | (w, Ok _) => close_all r w
              end
  end.
Definition top_close (ord : list subprinter -> list subprinter) (st : printer_top) (w : W) : W * res unit :=
  close_all (ord (pt_printers st)) w.

(** ** converter_top.py:107-112 [Converter] *)
Record converter := { cv_framer : framer; cv_decoder : decoder; cv_printer : printer_top }.
Definition converter_init : converter :=
  {| cv_framer := framer_init; cv_decoder := decoder_init; cv_printer := printer_init |}.

(** converter_top.py:72-80, 126-133 [get_statistics] *)
Record statistics := {
  decoding_attempts : Z; parsing_errors : Z; decoding_errors : Z; printing_attempts : Z; printing_errors : Z }.
Definition get_statistics (c : converter) : statistics :=
  {| decoding_attempts := dec_attempts (cv_decoder c); parsing_errors := fr_errs (cv_framer c);
     decoding_errors := dec_errors (cv_decoder c); printing_attempts := pt_attempts (cv_printer c);
     printing_errors := pt_errors (cv_printer c) |}.

(** Registering sub-decoders and sub-printers one after the other; [None] as soon as one is
    refused (the [return None] of the strategies). (converter_top.py:136-260) *)
Fixpoint register_all (d : decoder) (l : list subdec) : option decoder :=
  match l with
  | [] => Some d
  | io :: r => match register_decoder d io with (d, true) => register_all d r | _ => None end
  end.
(** converter_top.py:136-260 *)
Fixpoint add_all (p : printer_top) (l : list subprinter) : option printer_top :=
  match l with
  | [] => Some p
  | io :: r => match add_subprinter p io with (p, true) => add_all p r | _ => None end
  end.
End Top.
Arguments Build_subprinter {W}. Arguments sp_id {W}. Arguments sp_format {W}. Arguments sp_print {W}.
Arguments sp_close {W}. Arguments sp_data {W}. Arguments sp_actual {W}.
Arguments Build_printer_top {W}. Arguments pt_format {W}. Arguments pt_printers {W}. Arguments pt_attempts {W}.
Arguments pt_succeeded {W}. Arguments printer_init {W}. Arguments set_format {W}. Arguments pt_exist {W}.
Arguments pt_ready {W}. Arguments pt_errors {W}. Arguments add_subprinter {W}. Arguments takes {W}.
Arguments print_body {W}. Arguments top_print {W}. Arguments close_all {W}. Arguments top_close {W}.
Arguments Build_converter {W}. Arguments cv_framer {W}. Arguments cv_decoder {W}. Arguments cv_printer {W}.
Arguments converter_init {W}. Arguments get_statistics {W}. Arguments add_all {W}.

(** ** The two printers behind the interface *)

(** State of the two printers.  [w_calls] counts the print calls: it only serves to let the
    operating system answer differently from call to call.
    (the printers of converter_top.py:136-260) *)
Record world := { w_margo : margo; w_json : json_printer; w_calls : nat }.
(** the printers of converter_top.py:136-260 *)
Definition world_init : world := {| w_margo := margo_init; w_json := json_init; w_calls := 0 |}.

(** The operating system: may this file be created at the n-th print call?;
    [open] in printers/margo_printer.py:410-437 and printers/json_printer.py:165-180 *)
Definition os := nat -> string -> bool.

(** controls.py:15-36 [BoxWithConverterControls] *)
Record boxed_controls := { box_margo : margo_controls; box_json : json_controls }.

(** printers/margo_printer.py:383-400 [PrintMARGO.__init__]; [isdir] tells whether the working
    directory exists. *)
Definition margo_printer (isdir : bool) (env : os) (id : nat) (ctl : margo_controls) (mode : string)
  : res (subprinter world) :=
  if negb isdir then Err EAssert
  else
    spec <- make_specs mode ;;
    Ok {| sp_id := id; sp_format := mode;
          sp_print := Some (fun w x =>
            let '(m, r) := margo_print ctl (env (w_calls w)) (w_margo w) x in
            ({| w_margo := m; w_json := w_json w; w_calls := S (w_calls w) |}, r));
          sp_close := Some (fun w =>
            ({| w_margo := margo_close (w_margo w); w_json := w_json w; w_calls := w_calls w |}, Ok tt));
          sp_data := spec; sp_actual := ["ObservablesMSM"] |}.

(** printers/json_printer.py:107-131 [PrintJSON.__init__] *)
Definition json_subprinter (isdir : bool) (env : os) (id : nat) (ctl : json_controls) (mode : string)
  : res (subprinter world) :=
  if negb isdir then Err EAssert
  else
    spec <- make_specs mode ;;
    Ok {| sp_id := id; sp_format := mode;
          sp_print := Some (fun w x =>
            let '(j, r) := json_print ctl (env (w_calls w)) (w_json w) x in
            ({| w_margo := w_margo w; w_json := j; w_calls := S (w_calls w) |}, r));
          sp_close := Some (fun w =>
            ({| w_margo := w_margo w; w_json := json_close (w_json w); w_calls := w_calls w |}, Ok tt));
          sp_data := spec; sp_actual := json_actual |}.

(** converter_top.py:136-260: the strategies.  Each makes a converter, registers sub-decoders,
    sets the format, makes and adds printers. *)
Definition assemble (decs : list subdec) (fmt : string) (mk : list (res (subprinter world)))
  : res (option (converter world)) :=
  match register_all decoder_init decs with
  | None => Ok None
  | Some d =>
      (fix add (p : printer_top world) (mk : list (res (subprinter world))) {struct mk} :=
         match mk with
         | [] => Ok (Some {| cv_framer := framer_init; cv_decoder := d; cv_printer := p |})
         | m :: r => io <- m ;; match add_subprinter p io with (p, true) => add p r | _ => Ok None end
         end) (set_format printer_init fmt) mk
  end.

(** converter_top.py:136-155 *)
Definition strategy_MARGO (isdir : bool) (env : os) (ctl : boxed_controls) : res (option (converter world)) :=
  assemble [sub_msm4567 false; sub_msm123 false] "MARGO"
    [margo_printer isdir env 0 (box_margo ctl) "MARGO"].
(** converter_top.py:158-189 *)
Definition strategy_JSON (isdir : bool) (env : os) (ctl : boxed_controls) : res (option (converter world)) :=
  assemble [sub_msm4567 false; sub_msm123 false; sub_eph false; sub_base false] "JSON"
    [json_subprinter isdir env 0 (box_json ctl) "JSON"].
(** converter_top.py:192-223 *)
Definition strategy_JSON_B (isdir : bool) (env : os) (ctl : boxed_controls) : res (option (converter world)) :=
  assemble [sub_msm4567 true; sub_msm123 true; sub_eph true; sub_base true] "JSON"
    [json_subprinter isdir env 0 (box_json ctl) "JSON"].
(** converter_top.py:226-260 *)
Definition strategy_JARGO (isdir : bool) (env : os) (ctl : boxed_controls) : res (option (converter world)) :=
  assemble [sub_msm4567 false; sub_msm123 false; sub_eph false; sub_base false] "JARGO"
    [json_subprinter isdir env 0 (box_json ctl) "JARGO"; margo_printer isdir env 1 (box_margo ctl) "MARGO"].

(** converter_top.py:263-292 [ConverterFactory] *)
Definition FACTORY : list (string * (bool -> os -> boxed_controls -> res (option (converter world)))) :=
  [("MARGO", strategy_MARGO); ("JSON", strategy_JSON); ("JSON-B", strategy_JSON_B); ("JARGO", strategy_JARGO)].
Definition factory (mode : string) (isdir : bool) (env : os) (ctl : boxed_controls)
  : res (option (converter world)) :=
  match sget FACTORY mode with
  | Some f => f isdir env ctl
  | None => Ok None
  end.

(** converter_top.py:114-124: [parse_bytes], [decode], [print], [release].  The state is returned
    also when an exception leaves the method, except for [parse_bytes], which never raises
    (C10_total_and_bounded). *)
Section Converter.
Variable ord : list (subprinter world) -> list (subprinter world).

Definition cv_parse (c : converter world) (buf : list Z) : converter world * res (list (list Z)) :=
  match catch_message (cv_framer c) buf with
  | Ok (f, ms) => ({| cv_framer := f; cv_decoder := cv_decoder c; cv_printer := cv_printer c |}, Ok ms)
  | Err e => (c, Err e)
  end.
Definition cv_decode (c : converter world) (msg : list Z) : converter world * res (option rtcm_obj) :=
  let '(r, d) := decode (cv_decoder c) msg in
  ({| cv_framer := cv_framer c; cv_decoder := d; cv_printer := cv_printer c |}, r).
Definition cv_print (c : converter world) (w : world) (x : rtcm_obj) : converter world * world * res unit :=
  let '(p, w, r) := top_print ord (cv_printer c) w x in
  ({| cv_framer := cv_framer c; cv_decoder := cv_decoder c; cv_printer := p |}, w, r).
Definition cv_release (c : converter world) (w : world) : world * res unit := top_close ord (cv_printer c) w.
End Converter.
