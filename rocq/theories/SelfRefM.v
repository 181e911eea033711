(* References a document makes to itself and the events it records (models/xmp_mm/model.go:125-138, 174-192) *)
From Coq Require Import List Arith Bool Ascii String.
From Verif Require Import GoStr MmM.
Import ListNotations.
Local Open Scope string_scope.

(* models/xmp_mm/types.go:24-42 ResourceRef. GUID, AgentName, Uri, RenditionClass and MaskType are strings in Go;
   dates are their text, the zero date is the empty text; FromPart and ToPart are the text of the part, None is nil. *)
Record ref := Ref {
  rf_paths : list string; rf_original : string; rf_document : string; rf_file : string; rf_from : option string;
  rf_instance : string; rf_modified : string; rf_manager : string; rf_variant : string; rf_manage_to : string;
  rf_manage_ui : string; rf_mask : string; rf_mapping : string; rf_class : string; rf_params : string;
  rf_to : option string; rf_version : string
}.

(* models/xmp_mm/model.go:58-75 XmpMM, the fields SelfResourceRef reads. History is a slice of pointers to events:
   None is nil, Some a an address in sr_events (address = position, allocation appends). sr_refs is the memory of
   the references handed out. *)
Record srm := SRM {
  sr_original : string; sr_document : string; sr_instance : string; sr_manager : string; sr_variant : string;
  sr_manage_to : string; sr_manage_ui : string; sr_class : string; sr_params : string;
  sr_history : list (option nat); sr_events : list event; sr_refs : list ref
}.
Definition srm_empty : srm := SRM "" "" "" "" "" "" "" "" "" [] [] [].

(* model.go:133-138 GetLastEvent: the pointer *)
Definition get_last_event (m : srm) : option nat :=
  match rev (sr_history m) with p :: _ => p | [] => None end.

(* model.go:174-192 SelfResourceRef: the value the new pointer has *)
Definition self_ref (m : srm) (version : string) : ref :=
  let date :=
    match get_last_event m with
    | Some a => match nth_error (sr_events m) a with Some e => ev_when e | None => "" end   (* no dangling pointers in Go *)
    | None => ""
    end in
  Ref [] (sr_original m) (sr_document m) "" None (sr_instance m) date (sr_manager m) (sr_variant m) (sr_manage_to m)
      (sr_manage_ui m) "None" "" (sr_class m) (sr_params m) None version.

(* the fields of XmpMM a program may assign, model.go:58-75 *)
Inductive id_field := FOriginal | FDocument | FInstance | FManager | FVariant | FManageTo | FManageUI | FClass | FParams.
Definition set_id (m : srm) (f : id_field) (v : string) : srm :=
  let '(SRM o d i g r t u c p h e k) := m in
  match f with
  | FOriginal => SRM v d i g r t u c p h e k
  | FDocument => SRM o v i g r t u c p h e k
  | FInstance => SRM o d v g r t u c p h e k
  | FManager => SRM o d i v r t u c p h e k
  | FVariant => SRM o d i g v t u c p h e k
  | FManageTo => SRM o d i g r v u c p h e k
  | FManageUI => SRM o d i g r t v c p h e k
  | FClass => SRM o d i g r t u v p h e k
  | FParams => SRM o d i g r t u c v h e k
  end.
Definition with_lists (m : srm) (h : list (option nat)) (e : list event) (k : list ref) : srm :=
  SRM (sr_original m) (sr_document m) (sr_instance m) (sr_manager m) (sr_variant m) (sr_manage_to m) (sr_manage_ui m)
      (sr_class m) (sr_params m) h e k.

(* model.go:125-127 AddHistory *)
Definition add_history (m : srm) (p : option nat) : srm := with_lists m (sr_history m ++ [p])%list (sr_events m) (sr_refs m).

Definition with_when (d : string) (e : event) : event :=
  Event (ev_action e) (ev_changed e) (ev_instance e) (ev_params e) (ev_agent e) d.
Definition with_file (v : string) (r : ref) : ref :=
  Ref (rf_paths r) (rf_original r) (rf_document r) v (rf_from r) (rf_instance r) (rf_modified r) (rf_manager r) (rf_variant r)
      (rf_manage_to r) (rf_manage_ui r) (rf_mask r) (rf_mapping r) (rf_class r) (rf_params r) (rf_to r) (rf_version r).

(* what a program does: assign a field of the model, make an event, set the date of an event it made, record an event
   (or nil), ask for a reference, set the file path of a reference it got. Events and references are numbered in the
   order they were made. *)
Inductive sr_op :=
| SSet (f : id_field) (v : string)
| SNew (e : event)
| SWhen (a : nat) (d : string)
| SAdd (p : option nat)
| SSelf (version : string)
| SFile (i : nat) (v : string).

Definition sr_step (m : srm) (o : sr_op) : srm :=
  match o with
  | SSet f v => set_id m f v
  | SNew e => with_lists m (sr_history m) (sr_events m ++ [e])%list (sr_refs m)
  | SWhen a d => with_lists m (sr_history m) (update_nth (with_when d) a (sr_events m)) (sr_refs m)
  | SAdd p => add_history m p
  | SSelf v => with_lists m (sr_history m) (sr_events m) (sr_refs m ++ [self_ref m v])%list
  | SFile i v => with_lists m (sr_history m) (sr_events m) (update_nth (with_file v) i (sr_refs m))
  end.
Definition sr_run (h : list sr_op) : srm := fold_left sr_step h srm_empty.
