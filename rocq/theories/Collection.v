(** The answer of an entity collection endpoint, written and read: discovery.go:33-58,111-156,
    and the collectors that use it: discovery.go:515-564,734-754. *)
From Coq Require Import QArith.
From Verif Require Import Base GoVal Policy Schema Metadata Chain Resolver FloatTime Json TrustMark Leaf Config Discovery Statement Encode.
From Verif Require Import Json.
Local Open Scope nat_scope.
Local Open Scope string_scope.

(** UIInfo.MarshalJSON, UIInfo.UnmarshalJSON: discovery.go:135-156 *)
Definition enc_ui (u : uiinfo) : json := marshal ui_fields (ui_vals u) (ui_extra u).
Definition dec_ui (j : json) : res uiinfo :=
  '(vs, x) <- unmarshal_with_extra ui_fields j (zeros ui_fields) ;; Ok (UI vs x).

(** The values of the fields of CollectedEntity and EntityCollectionResponse.
    Used at discovery.go:32-48. *)
Inductive cval :=
| CStr (s : string) | CMarks (l : list info) | CNames (l : option (list string)) | CInfos (m : smap uiinfo)
| CEntities (l : option (list (option collected))) | CTime (t : option time).
Definition cv_str (v : cval) : string := match v with CStr s => s | _ => "" end.
Definition cv_marks (v : cval) : list info := match v with CMarks l => l | _ => [] end.
Definition cv_names (v : cval) : list string := match v with CNames l => items l | _ => [] end.
Definition cv_infos (v : cval) : smap uiinfo := match v with CInfos m => m | _ => [] end.
Definition cv_entities (v : cval) : option (list (option collected)) := match v with CEntities l => l | _ => None end.
Definition cnth (i : nat) (vs : list cval) : cval := nth i vs (CStr "").
(** What omitempty omits. Used at discovery.go:32-58. *)
Definition empty_cval (v : cval) : bool :=
  match v with
  | CStr s => String.eqb s ""
  | CMarks l => match l with [] => true | _ => false end
  | CNames l => match items l with [] => true | _ => false end
  | CInfos m => match m with [] => true | _ => false end
  | CEntities l => match l with Some (_ :: _) => false | _ => true end
  | CTime t => match t with None => true | Some _ => false end
  end.
(** A field whose values are made by [wrap]; it is decoded into a fresh value.
    Used at discovery.go:32-58. *)
Definition cfield {A} (tag : string) (om : bool) (wrap : A -> cval) (zero : A) (enc : cval -> json) (dec : json -> res A) : jfield cval :=
  JField tag om (Codec (wrap zero) empty_cval enc (fun _ j => x <- dec j ;; Ok (wrap x))).

Definition enc_cval (v : cval) : json :=
  match v with
  | CStr s => JStr s
  | CMarks l => JArr (map enc_info l)
  | CNames l => enc_names l
  | CInfos m => JObj (map (fun kv => (fst kv, enc_ui (snd kv))) m)
  | CEntities _ => JNull
  | CTime t => enc_opt (fun t => JNum (encode_time t)) t
  end.
(** CollectedEntity: discovery.go:40-48. The field metadata is not exported, so encoding/json
    does not see it. *)
Definition collected_fields (jws : string -> bool) : list (jfield cval) :=
  [ cfield "entity_id" false CStr "" enc_cval (dec_str ""); cfield "trust_marks" true CMarks [] enc_cval dec_infos;
    cfield "trust_chain" true CNames None enc_cval (dec_messages jws); cfield "entity_types" true CNames None enc_cval dec_names;
    cfield "ui_infos" true CInfos [] enc_cval (dec_map dec_ui) ].
(** CollectedEntity.MarshalJSON: discovery.go:111-118. Extra is never set by a collector and
    nil and empty slices and maps are all omitted. *)
Definition enc_collected (e : collected) : json :=
  marshal (collected_fields (fun _ => true))
    [CStr (ce_id e); CMarks (ce_marks e); CNames (Some (ce_chain e)); CNames (Some (ce_types e)); CInfos (ce_ui e)] [].
(** CollectedEntity.UnmarshalJSON: discovery.go:121-132. Extra is not used by the library and
    not kept here. *)
Definition dec_collected (jws : string -> bool) (j : json) : res collected :=
  '(vs, _) <- unmarshal_with_extra (collected_fields jws) j (zeros (collected_fields jws)) ;;
  Ok (Coll (cv_str (cnth 0 vs)) (cv_names (cnth 3 vs)) (cv_infos (cnth 4 vs)) (cv_marks (cnth 1 vs)) (cv_names (cnth 2 vs)) None).

(** EntityCollectionResponse: discovery.go:32-37, a struct without methods; the members of
    FederationEntities are pointers, null is read as nil. Its Extra is neither written nor read. *)
Definition enc_entities (l : option (list (option collected))) : json :=
  match l with None => JNull | Some l => JArr (map (enc_opt enc_collected) l) end.
Definition dec_entities (jws : string -> bool) (j : json) : res (option (list (option collected))) :=
  match j with JNull => Ok None | JArr l => r <- map_res (dec_ptr (dec_collected jws)) l ;; Ok (Some r) | _ => Err end.
Definition enc_cresponse (v : cval) : json := match v with CEntities l => enc_entities l | _ => enc_cval v end.
Definition collection_fields (jws : string -> bool) : list (jfield cval) :=
  [ cfield "federation_entities" false CEntities None enc_cresponse (dec_entities jws);
    cfield "next_entity_id" true CStr "" enc_cresponse (dec_str "");
    cfield "last_updated" true CTime None enc_cresponse dec_time_ptr ].
Record collection := Collection { cl_entities : option (list (option collected)); cl_next : string; cl_updated : option time }.
Definition enc_collection (c : collection) : json :=
  JObj (enc_fields (collection_fields (fun _ => true)) [CEntities (cl_entities c); CStr (cl_next c); CTime (cl_updated c)]).
(** The slice the collectors of this library return for the entities [l]: they append to a nil
    slice (discovery.go:226-254,515-532). *)
Definition slice_of (l : list collected) : option (list (option collected)) := match l with [] => None | _ => Some (map Some l) end.

(** SimpleRemoteEntityCollector.CollectEntities: discovery.go:734-754. [body] is the document
    http.Get decodes (None: no answer, or an error answer). A document that does not fit is an
    error as well. *)
Definition simple_remote (jws : string -> bool) (body : option json) : option (list (option collected)) :=
  match body with
  | None => None
  | Some j => match unmarshal (collection_fields jws) j with Ok vs => cv_entities (cnth 0 vs) | _ => None end
  end.

(** SmartRemoteEntityCollector.CollectEntities: discovery.go:767-795, with the documents the
    endpoints answer. None: the local collector is used. *)
Fixpoint smart_answers (jws : string -> bool) (endpoint : nat -> string -> string) (body : nat -> string -> option json) (i : nat)
         (ids : list string) : option (list (option collected)) :=
  match ids with
  | [] => None
  | a :: ids' =>
      let ep := endpoint i a in
      if String.eqb ep "" then smart_answers jws endpoint body (S i) ids'
      else match simple_remote jws (body i ep) with
           | Some l => Some l
           | None => smart_answers jws endpoint body (S i) ids'
           end
  end.
(** FilterableVerifiedChainsEntityCollector over a remote collector: discovery.go:515-547. The
    filter EntityCollectionFilterVerifiedChains comes first and reads e.EntityID
    (discovery.go:556-564): a nil entity makes it panic. *)
Fixpoint filter_remote (valid : nat -> collected -> bool) (fs : list (nat -> collected -> bool)) (i : nat) (l : list (option collected))
  : res (list collected) :=
  match l with
  | [] => Ok []
  | None :: _ => Panic
  | Some e :: l' =>
      r <- filter_remote valid fs (S i) l' ;;
      Ok (if approve (valid :: fs) false i e then e :: r else r)
  end.
