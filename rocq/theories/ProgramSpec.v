(** * ProgramSpec: what the command leaves behind (C60). *)
From Verif Require Import PyBase PyDict PyVal FramerSpec DecoderModel MsmModel MargoModel MargoSpec MargoFiles JsonModel JsonFileSpec PrinterModel PrinterSpec
  NamesSpec MainModel MainSpec ControlsModel SourcesModel.
Local Open Scope string_scope.
Local Open Scope list_scope.
Local Open Scope Z_scope.

(** The shape of the disk and the contents of its files belong together. *)
Definition same_disk (d : disk) (f : fs) : Prop := forall p, d p = KFile <-> f p <> None.

(** The products of a source in the file system [f], for the bytes of the source: each JSON file
    is absent if there are no objects for it, else it is a JSON text of these objects, in order;
    each observation file is absent if no measurement goes there, else its lines are those of the
    measurements, in order. *)
Definition products (mode : string) (ctl : boxed_controls) (src : path) (content : list Z) (f : fs) : Prop :=
  forall segs rest, scans content segs rest ->
    let objs := objects mode (frames_of segs) in
    (forall num sub name, json_place num sub name ->
       let file := work_folder src mode ++ [sub; name] in
       match numbered mode num objs with
       | [] => f file = None
       | x :: r => exists text, f file = Some text /\ JsonSpec.read_json text = Some (document (box_json ctl) x r)
       end) /\
    exists hist, history_of (observations mode objs) hist /\
      forall g p sgn t, known g sgn ->
        let file := work_folder src mode ++ [gnss_dir g; obs_file g p sgn t] in
        match filter (goes_here (box_margo ctl) g p sgn t) hist with
        | [] => f file = None
        | _ => exists text, f file = Some text /\ file_of (box_margo ctl) g p sgn t hist text
        end.
