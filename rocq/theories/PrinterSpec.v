(** * PrinterSpec: vocabulary for the printing half of a converter (C36, C37). *)
From Coq Require Import Permutation.
From Verif Require Import PyBase PyDict MsmModel DecoderModel PrinterModel.
Local Open Scope string_scope.
Local Open Scope list_scope.
Local Open Scope Z_scope.

(** The walk over a set of printers may be in any order. *)
Definition walk {W} (ord : list (subprinter W) -> list (subprinter W)) : Prop := forall l, Permutation l (ord l).

(** ** Histories of a printer *)

Inductive pevent (W : Type) := SetFormat (f : string) | AddPrinter (io : subprinter W) | Print (x : rtcm_obj).
Arguments SetFormat {W}. Arguments AddPrinter {W}. Arguments Print {W}.

Section History.
Context {W : Type} (ord : list (subprinter W) -> list (subprinter W)).

(** State of the printer and of the sub-printers after a history; exceptions of [print] are
    caught by the caller. *)
Definition pstep (s : printer_top W * W) (e : pevent W) : printer_top W * W :=
  match e with
  | SetFormat f => (set_format (fst s) f, snd s)
  | AddPrinter io => (fst (add_subprinter (fst s) io), snd s)
  | Print x => fst (top_print ord (fst s) (snd s) x)
  end.
Definition pafter (w : W) (h : list (pevent W)) : printer_top W * W := fold_left pstep h (printer_init, w).
(** What [print(x)] gives to the caller after the history [h]. *)
Definition panswer (w : W) (h : list (pevent W)) (x : rtcm_obj) : res unit :=
  snd (top_print ord (fst (pafter w h)) (snd (pafter w h)) x).

(** ** Meaning *)

(** The format in force is one of the three known ones: the last one that was set. *)
Definition known_format (f : string) : Prop := In f ["MARGO"; "JSON"; "JARGO"].
Definition format_set (h : list (pevent W)) : Prop :=
  exists before f after, h = before ++ SetFormat f :: after /\ known_format f /\
    forall f', ~ In (SetFormat f') after.

(** A sub-printer the printer is willing to take. *)
Definition printer_ok (io : subprinter W) : Prop :=
  sp_print io <> None /\ sp_close io <> None /\ sp_actual io <> [].

(** [io] has been taken: it was offered while a format was in force. *)
Definition taken (h : list (pevent W)) (io : subprinter W) : Prop :=
  exists before after, h = before ++ AddPrinter io :: after /\ format_set before /\ printer_ok io.

(** [io] prints objects of this class. *)
Definition prints (io : subprinter W) (cls : string) : Prop := In cls (sp_data io) /\ In cls (sp_actual io).

(** Objects with the same identity are the same. *)
Definition identified (h : list (pevent W)) : Prop :=
  forall io io', In (AddPrinter io) h -> In (AddPrinter io') h -> sp_id io = sp_id io' -> io = io'.

(** [delivered w h x io w' r]: after [h], [x] is given to the taken sub-printer [io], which
    leaves the state [w'] with result [r]. *)
Definition delivered (w : W) (h : list (pevent W)) (x : rtcm_obj) (io : subprinter W) (w' : W) (r : res unit) : Prop :=
  taken h io /\ prints io (class_of x) /\
  exists f, sp_print io = Some f /\ f (snd (pafter w h)) x = (w', r).

(** Attempts and errors a history must lead to. *)
Inductive ptally (w : W) : list (pevent W) -> Z -> Z -> Prop :=
| ptally_nil : ptally w [] 0 0
| ptally_format h f a e : ptally w h a e -> ptally w (h ++ [SetFormat f]) a e
| ptally_add h io a e : ptally w h a e -> ptally w (h ++ [AddPrinter io]) a e
| ptally_nobody h x a e : ptally w h a e ->
    (forall io, taken h io -> ~ prints io (class_of x)) ->
    snd (pafter w (h ++ [Print x])) = snd (pafter w h) -> panswer w h x = Ok tt ->
    ptally w (h ++ [Print x]) a e
| ptally_printed h x io w' a e : ptally w h a e ->
    delivered w h x io w' (Ok tt) ->
    snd (pafter w (h ++ [Print x])) = w' -> panswer w h x = Ok tt ->
    ptally w (h ++ [Print x]) (a + 1) e
| ptally_rejected h x io w' a e : ptally w h a e ->
    delivered w h x io w' (Err EAssert) ->
    snd (pafter w (h ++ [Print x])) = w' -> panswer w h x = Ok tt ->
    ptally w (h ++ [Print x]) (a + 1) (e + 1)
| ptally_raised h x io w' y a e : ptally w h a e ->
    delivered w h x io w' (Err y) -> y <> EAssert ->
    snd (pafter w (h ++ [Print x])) = w' -> panswer w h x = Err y ->
    ptally w (h ++ [Print x]) (a + 1) (e + 1).
End History.

(** ** Converters *)

(** Calls of a converter's methods. *)
Inductive call := Parse (buf : list Z) | DecodeMsg (msg : list Z) | PrintObj (x : rtcm_obj).
Definition cstep (ord : list (subprinter world) -> list (subprinter world)) (s : converter world * world) (e : call)
  : converter world * world :=
  match e with
  | Parse buf => (fst (cv_parse (fst s) buf), snd s)
  | DecodeMsg msg => (fst (cv_decode (fst s) msg), snd s)
  | PrintObj x => fst (cv_print ord (fst s) (snd s) x)
  end.
Definition reached (ord : list (subprinter world) -> list (subprinter world)) (c : converter world) (w : world)
    (calls : list call) : converter world * world := fold_left (cstep ord) calls (c, w).

Definition modes : list string := ["MARGO"; "JSON"; "JSON-B"; "JARGO"].
(** Sub-decoders in a mode: MSM only for MARGO; bare data for JSON-B. *)
Definition is_bare (mode : string) : bool := String.eqb mode "JSON-B".
Definition decoders_of (mode : string) : list subdec :=
  if String.eqb mode "MARGO" then [sub_msm4567 false; sub_msm123 false]
  else [sub_msm4567 (is_bare mode); sub_msm123 (is_bare mode); sub_eph (is_bare mode); sub_base (is_bare mode)].
(** Output family of an object in a mode: observations are MARGO files in the modes MARGO and
    JARGO, everything else is JSON. *)
Inductive family := ObsFiles | JsonFiles.
Definition family_of (mode : string) (o : rtcm_obj) : family :=
  if String.eqb (class_of o) "ObservablesMSM" && (String.eqb mode "MARGO" || String.eqb mode "JARGO")
  then ObsFiles else JsonFiles.
