(* Collecting identifiers: SyncModel of XmpBase (models/xmp_base/model.go:82-115), Document.SyncMulti (xmp/sync.go:145-154) and
   Document.SyncModels (xmp/document.go:70-80), on the documents of DecodeM.v and the accessors of TPathM.v.
   SyncModel of all other models of the library returns nil (QtInfo, models/qt/model.go, asks its parts, which return nil). *)
From Coq Require Import List Arith ZArith Bool Ascii String.
From Verif Require Import GoStr GoMap Names RegistryM PathM PVList SyncFlags NodeM DocM TypeM TagM DecodeM TPathM ModelTypes SyncModelsM.
Import ListNotations.
Local Open Scope string_scope.

Section IdSync.
Context {X : Type}.
Notation gval := (gval X).
Notation doc := (doc (tmodel X)).
Variable cdc : string -> codec X.
Variable kinds : nat -> string -> option (mkind X).
Variable growth : nat -> nat.
Variable sortf : list path_value -> list path_value.

(* models/xmp_base/types.go:51-54 Identifier{ID, Scheme} *)
Definition ident_value (id scheme : string) : gval := VStruct [VStr id; VStr scheme].
(* MarshalText (96-104) and UnmarshalText (106-109). Its MarshalXMP is not needed for access by path. *)
Definition ident_codec : codec X :=
  Codec _
    (fun v => match v with
              | VStruct [VStr id; VStr scheme] => Ok (Some ((if emptyb scheme then "" else scheme ++ ":") ++ id))
              | _ => Panic
              end)
    (fun old s => match old with VStruct [_; scheme] => Ok (VStruct [VStr s; scheme]) | _ => Panic end)
    (ident_value "" "")
    (fun _ => false)
    false.
(* models/xmp_base/types.go:111, 123-125, 157-167 *)
Definition t_ident_array : ty X := TArr (ArrInfo _ "Bag" true None true) (TText ident_codec).

(* models/xmp_base/model.go:59-72 as seen by the path functions: identifiers have their text methods *)
Definition fs_base : list (finfo * ty X) :=
  fields (map (fun f => if go_name f =? "Identifier" then F (go_name f) (go_tag f) t_ident_array else f) (fs_xmpbase_XmpBase cdc)).
(* 74-80 *)
Definition k_base : mkind X := MKind [ns_xmpbase_NsXmp] (fun p => p =? "xmp") fs_base (map (fun f => zero (snd f)) fs_base).

(* xmp/sync.go:66-71 SyncDesc *)
Record sync_desc := SyncDesc { sd_source : path; sd_dest : path; sd_flags : Z; sd_convert : option (string -> string) }.

(* models/xmp_base/model.go:82-86 *)
Definition prefixer (prefix : string) : option (string -> string) := Some (fun v => prefix ++ ":" ++ v).
(* 88-106 *)
Definition identifier_desc : list sync_desc :=
  [SyncDesc "trim:Asset/UUID" "xmp:Identifier" MERGE None;
   SyncDesc "exif:ImageUniqueID" "xmp:Identifier" MERGE (prefixer "uuid:exif");
   SyncDesc "arri:UUID" "xmp:Identifier" MERGE (prefixer "uuid:arri");
   SyncDesc "arri:SMPTE_UMID" "xmp:Identifier" MERGE (prefixer "umid:smpte");
   SyncDesc "iXML:fileUid" "xmp:Identifier" MERGE (prefixer "uuid:ixml");
   SyncDesc "qt:mdta/ContentIdentifier" "xmp:Identifier" MERGE (prefixer "uuid:cid");
   SyncDesc "iTunes:StoreFrontID" "xmp:Identifier" MERGE (prefixer "uuid:sfid");
   SyncDesc "qt:GUID" "xmp:Identifier" MERGE (prefixer "uuid:guid");
   SyncDesc "qt:ISRCCode" "xmp:Identifier" MERGE (prefixer "uuid:isrc");
   SyncDesc "qt:ContentID" "xmp:Identifier" MERGE (prefixer "uuid:cid");
   SyncDesc "qt:ClipID" "xmp:Identifier" MERGE (prefixer "uuid:clipid");
   SyncDesc "qt:proapps/ClipID" "xmp:Identifier" MERGE (prefixer "uuid:clipid");
   SyncDesc "bext:umid" "xmp:Identifier" MERGE (prefixer "umid:smpte");
   SyncDesc "id3:podcastID" "xmp:Identifier" MERGE (prefixer "uuid:podcast");
   SyncDesc "id3:uniqueFileIdentifier" "xmp:Identifier" MERGE (prefixer "uuid:id3");
   SyncDesc "GettyImagesGIFT:AssetID" "xmp:Identifier" MERGE (prefixer "uuid:getty");
   SyncDesc "Iptc4xmpExt:DigImageGUID" "xmp:Identifier" MERGE (prefixer "uuid:iptc");
   SyncDesc "mxf:PackageID" "xmp:Identifier" MERGE (prefixer "umid:smpte")].

Notation bops := (base_ops kinds growth sortf).

(* xmp/sync.go:145-154; m is the model of node i *)
Fixpoint sync_multi (reg : registry) (l : list sync_desc) (i : nat) (d : doc) : doc * result unit :=
  match l with
  | [] => (d, Ok tt)
  | v :: r =>
      match doc_sync bops reg d (sd_source v) (sd_dest v) (sd_flags v) (Some i) (sd_convert v) with
      | (d', Ok _) => sync_multi reg r i d'
      | x => x
      end
  end.

(* models/xmp_base/model.go:113-115; other models return nil *)
Definition sync_model (reg : registry) (m : tmodel X) (i : nat) (d : doc) : doc * result unit :=
  if home m =? "xmp" then sync_multi reg identifier_desc i d else (d, Ok tt).

(* xmp/document.go:70-80. The slice of nodes does not change meanwhile: with a given destination model Sync adds no nodes;
   k nodes are left, the next has index i *)
Fixpoint sync_models_from (reg : registry) (k i : nat) (d : doc) : doc * result unit :=
  match k with
  | 0 => (d, Ok tt)
  | S k' =>
      match model_at d i with
      | Some m =>
          match sync_model reg m i d with
          | (d', Ok _) => sync_models_from reg k' (S i) d'
          | x => x
          end
      | None => sync_models_from reg k' (S i) d
      end
  end.
Definition sync_models (reg : registry) (d : doc) : doc * result unit := sync_models_from reg (List.length (d_nodes d)) 0 d.

(* models/xmp_base/model.go:145-151 AddID and AddIDWithScheme, on the value of the field *)
Definition add_id (v : gval) (id scheme : string) : gval :=
  match v with VArr l sp => slice_append growth (TText ident_codec) l sp (ident_value id scheme) | v => v end.
End IdSync.
