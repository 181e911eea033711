(* What collecting identifiers should do, in words of the API *)
From Coq Require Import List Arith ZArith Bool Ascii String.
From Verif Require Import GoStr GoMap Names RegistryM PathM NodeM DocM TypeM DecodeM ModelTypes SyncModelsM SpecDoc IdSyncM.
Import ListNotations.
Local Open Scope string_scope.

(* the properties of other models that identify the file, and the mark an identifier gets in front *)
Definition id_sources : list (string * option string) :=
  [("trim:Asset/UUID", None); ("exif:ImageUniqueID", Some "uuid:exif"); ("arri:UUID", Some "uuid:arri");
   ("arri:SMPTE_UMID", Some "umid:smpte"); ("iXML:fileUid", Some "uuid:ixml"); ("qt:mdta/ContentIdentifier", Some "uuid:cid");
   ("iTunes:StoreFrontID", Some "uuid:sfid"); ("qt:GUID", Some "uuid:guid"); ("qt:ISRCCode", Some "uuid:isrc");
   ("qt:ContentID", Some "uuid:cid"); ("qt:ClipID", Some "uuid:clipid"); ("qt:proapps/ClipID", Some "uuid:clipid");
   ("bext:umid", Some "umid:smpte"); ("id3:podcastID", Some "uuid:podcast"); ("id3:uniqueFileIdentifier", Some "uuid:id3");
   ("GettyImagesGIFT:AssetID", Some "uuid:getty"); ("Iptc4xmpExt:DigImageGUID", Some "uuid:iptc"); ("mxf:PackageID", Some "umid:smpte")].
Definition marked (mark : option string) (v : string) : string :=
  match mark with Some p => p ++ ":" ++ v | None => v end.

(* an identifier and its text *)
Record ident := Ident { i_id : string; i_scheme : string }.
Definition ident_text (x : ident) : string := if i_scheme x =? "" then i_id x else i_scheme x ++ ":" ++ i_id x.

Section S.
Context {X : Type}.
Variable ops : model_ops (tmodel X).

(* the model of the document that serves the namespace of the path *)
Definition asked_model reg (d : doc (tmodel X)) (p : path) (m : tmodel X) : Prop :=
  exists ns i n, path_namespace reg d p = Some ns /\ first_at (serves ops (ns_name ns)) (d_nodes d) i n /\ n_model n = Some m.
(* it has the value v for the property *)
Definition answers reg d (p : path) (v : string) : Prop := exists m, asked_model reg d p m /\ mo_get ops m p = Ok v.
(* no model that is asked panics *)
Definition safe_to_ask reg d : Prop := forall p k m, In (p, k) id_sources -> asked_model reg d p m -> mo_get ops m p <> Panic.

(* the XmpBase model in node i has the identifiers l *)
Definition identifiers (l : list ident) (sp : list (gval X)) : gval X := VArr (map (fun x => VStruct [VStr (i_id x); VStr (i_scheme x)]) l) sp.
Definition has_ids (cdc : string -> codec X) (d : doc (tmodel X)) (i : nat) (n : node (tmodel X)) (m : tmodel X) (l : list ident) : Prop :=
  nth_error (d_nodes d) i = Some n /\ n_model n = Some m /\ tm_kind m = k_base cdc /\
  exists sp, get_field m "xmp:Identifier" = Some (t_ident_array, identifiers l sp).
(* no other node has such a model *)
Definition sole_base (d : doc (tmodel X)) (i : nat) : Prop :=
  forall j n m, nth_error (d_nodes d) j = Some n -> n_model n = Some m ->
    (exists ns r, k_namespaces (tm_kind m) = ns :: r /\ ns_name ns = "xmp") -> j = i.
(* the namespace xmp is known *)
Definition knows_xmp reg (d : doc (tmodel X)) : Prop := exists ns, path_namespace reg d "xmp:Identifier" = Some ns.
End S.
