(** Entity collection: discovery.go, apimodel/collection.go (requests), and the
    helpers of metadata.go it uses. *)
From Verif Require Import Base GoVal Policy Schema Metadata Chain Resolver FloatTime Json TrustMark.
Local Open Scope string_scope.

(** ** Requests and collected entities *)

(** EntityCollectionRequest: apimodel/collection.go:4-12. For EntityTypes and Claims nil
    ([None]) and empty slices are distinguished; FromEntityID and Limit are not read by any
    collector of this library. *)
Record crequest := CReq {
  cr_from : string; cr_limit : nat; cr_marks : list string; cr_anchor : string;
  cr_types : option (list string); cr_name : string; cr_claims : option (list string) }.

(** UIInfo: discovery.go:50-58. [ui_vals] are the values of the fields in [ui_fields]. *)
Definition ui_fields : list (jfield gval) :=
  [ JField "display_name" true str_codec; JField "description" true str_codec; JField "keywords" true list_codec;
    JField "logo_uri" true str_codec; JField "policy_uri" true str_codec; JField "information_uri" true str_codec ].
Record uiinfo := UI { ui_vals : list gval; ui_extra : smap json }.
Definition zero_ui : uiinfo := UI (zeros ui_fields) [].

(** CollectedEntity: discovery.go:40-48. (nil and empty TrustMarks are not distinguished;
    Extra is never set by the collector.) *)
Record collected := Coll {
  ce_id : string; ce_types : list string; ce_ui : smap uiinfo; ce_marks : list info;
  ce_chain : list string; ce_metadata : option metadata }.

(** The struct tag as written in the source: reflect's Tag.Get("json").
    Used at discovery.go:50-58,75-81. *)
Definition raw_tag (f : jfield gval) : string := f_tag f ++ (if f_omit f then ",omitempty" else "").
(** discovery.go:77-81: commaIdx is len(tag), so the tag is used unchanged. *)
Definition tag_name (tag : string) : string := substring 0 (String.length tag) tag.
(** reflect's AssignableTo for the types used here. Used at discovery.go:83-92. *)
Definition assignable (v old : gval) : bool :=
  match v, old with GStr _, GStr _ => true | GList _, GList _ => true | _, _ => false end.
(** The dynamic values passed to setUIInfoField, as stored in Extra.
    Used at discovery.go:62-106. *)
Definition dyn (v : gval) : json :=
  match v with GStr s => JStr s | GList (Some l) => JArr (map JStr l) | _ => JNull end.

(** setUIInfoField: discovery.go:62-108. (The field Extra has the tag "-", which is no claim
    name used by the collector.) *)
Definition set_ui_field (ty tag : string) (v : gval) (m : smap uiinfo) : res (smap uiinfo) :=
  let u := match lookup ty m with Some u => u | None => zero_ui end in
  match index_of (fun t => String.eqb (tag_name t) tag) (map raw_tag ui_fields) with
  | Some i =>
      if assignable v (nth i (ui_vals u) (GRaw JNull))
      then Ok (insert ty (UI (set_nth i v (ui_vals u)) (ui_extra u)) m)
      else Err
  | None => Ok (insert ty (UI (ui_vals u) (insert tag (dyn v) (ui_extra u))) m)
  end.
(** The callers ignore (or only log) the error; the map is unchanged then.
    Used at discovery.go:62-106. *)
Definition put_ui (ty tag : string) (v : gval) (m : smap uiinfo) : smap uiinfo :=
  match set_ui_field ty tag v m with Ok m' => m' | _ => m end.

(** ** Metadata helpers: metadata.go *)

(** The non-nil pointer fields of Metadata with their tags, as iterated by reflection.
    Used at metadata.go:14-45,95-185. *)
Definition typed_entries (m : metadata) : list (string * emeta) :=
  (match md_op m with Some x => [("openid_provider", x)] | None => [] end ++
   match md_rp m with Some x => [("openid_relying_party", x)] | None => [] end ++
   match md_as m with Some x => [("oauth_authorization_server", x)] | None => [] end ++
   match md_oc m with Some x => [("oauth_client", x)] | None => [] end ++
   match md_pr m with Some x => [("oauth_resource", x)] | None => [] end ++
   match md_fe m with Some x => [("federation_entity", x)] | None => [] end)%list.

Definition field_str (name : string) (m : emeta) : string :=
  match em_get name m with Some v => str_of v | None => "" end.
Definition or_else (a b : string) : string := if String.eqb a "" then b else a.

(** The GuessDisplayName methods: metadata.go:47-92 *)
Definition second_name (ty : string) : string :=
  if String.eqb ty "openid_relying_party" then "ClientName"
  else if String.eqb ty "oauth_client" then "ClientName"
  else if String.eqb ty "oauth_resource" then "ResourceName"
  else "OrganizationName".
Definition guess_display_name (ty : string) (m : emeta) : string :=
  or_else (field_str "DisplayName" m) (field_str (second_name ty) m).
(** GuessDisplayNames: metadata.go:95-115 *)
Definition guess_display_names (m : metadata) : smap string :=
  map (fun te => (fst te, guess_display_name (fst te) (snd te))) (typed_entries m).

(** reflect's Kind() == String for a field. Used at metadata.go:153-185. *)
Definition is_string (t : gty) : bool := match t with TStr => true | _ => false end.
(** The inner loops of IterateStringClaim and IterateStringSliceClaim: metadata.go:133-146,
    167-180: the first field with this tag and kind string. *)
Definition string_field (tag : string) (m : emeta) : option GoVal.gval :=
  option_map snd (find (fun fv => String.eqb (fr_tag (fst fv)) tag && is_string (fr_ty (fst fv))) (em_fields m)).
(** IterateStringClaim: metadata.go:153-183: the calls of the iterator. *)
Definition string_claims (tag : string) (m : metadata) : list (string * string) :=
  flat_map (fun te => match string_field tag (snd te) with
                      | Some v => if String.eqb (str_of v) "" then [] else [(fst te, str_of v)]
                      | None => []
                      end) (typed_entries m).
(** IterateStringSliceClaim: metadata.go:119-149. It selects fields of kind string and then
    asserts []string, which panics. *)
Definition slice_claims (tag : string) (m : metadata) : res (list (string * list string)) :=
  if existsb (fun te => match string_field tag (snd te) with Some _ => true | None => false end) (typed_entries m)
  then Panic else Ok [].

(** ** Evaluation of one subordinate: discovery.go:298-434 *)

(** [ce_env] answers configuration requests, resolves and verifies; [ce_list] is fetchList
    (with its cache), [ce_fuzzy] is fuzzy.MatchNormalizedFold. Used at discovery.go:227-457. *)
Record cenv := CEnv {
  ce_env : env; ce_list : list nat -> string -> option (list string); ce_fuzzy : string -> string -> bool }.

(** req.Claims == nil || slices.Contains(req.Claims, c), and the second part alone.
    Used at discovery.go:227-457. *)
Definition wants (rq : crequest) (c : string) : bool :=
  match cr_claims rq with None => true | Some l => mem c l end.
Definition asks (rq : crequest) (c : string) : bool :=
  match cr_claims rq with None => false | Some l => mem c l end.

(** discovery.go:313-315 *)
Definition type_ok (rq : crequest) (types : list string) : bool :=
  match cr_types rq with None => true | Some l => existsb (fun t => mem t l) types end.
(** discovery.go:316-318, matchDisplayName, matchWithMode in mode fuzzy: 470-484 *)
Definition name_ok (ce : cenv) (rq : crequest) (names : smap string) : bool :=
  String.eqb (cr_name rq) "" || existsb (ce_fuzzy ce (cr_name rq)) (map snd names).
(** discovery.go:320-335; [ta] is the trust anchor's configuration, if it was obtained. *)
Fixpoint marks_ok (fuel : nat) (e : env) (p : list nat) (i : nat) (types : list string) (ts : list info)
         (ta : option stmt) : run bool :=
  match types with
  | [] => Done (Ok true)
  | ty :: types' =>
      match find_by_id ty ts, ta with
      | Some t, Some ta' =>
          match verify_mark fuel e (i :: p) t ta' with
          | OutOfFuel => OutOfFuel
          | Done Panic => Done Panic
          | Done Err => Done (Ok false)
          | Done (Ok _) => marks_ok fuel e p (S i) types' ts ta
          end
      | _, _ => Done (Ok false)
      end
  end.

(** discovery.go:346-387 *)
Definition ui_claims : list string := ["description"; "logo_uri"; "policy_uri"; "information_uri"].
Definition string_infos (rq : crequest) (m : metadata) : smap uiinfo :=
  fold_left (fun acc c => if wants rq c
                          then fold_left (fun acc tv => put_ui (fst tv) c (GStr (snd tv)) acc) (string_claims c m) acc
                          else acc) ui_claims [].
Definition ui_infos (rq : crequest) (m : metadata) : res (smap uiinfo) :=
  u2 <- (if wants rq "keywords"
         then l <- slice_claims "keywords" m ;;
              Ok (fold_left (fun acc tv => put_ui (fst tv) "keywords" (GList (Some (snd tv))) acc) l (string_infos rq m))
         else Ok (string_infos rq m)) ;;
  Ok (if wants rq "display_name"
      then fold_left (fun acc tn => if String.eqb (snd tn) "" then acc else put_ui (fst tn) "display_name" (GStr (snd tn)) acc)
                     (guess_display_names m) u2
      else u2).

(** discovery.go:389-420: the answer of the resolver; errors are only logged. *)
Definition resolved (fuel : nat) (e : env) (p : list nat) (rq : crequest) (sub : string) : run (option payload) :=
  if asks rq "metadata" || asks rq "trust_chain" then
    let r := Req sub [cr_anchor rq] [] in
    match (match te_default e with
           | LocalR => rbind (local_plain fuel e p r) (fun x => Done (Ok (fst x)))
           | d => resolve_payload fuel e d p r
           end) with
    | OutOfFuel => OutOfFuel
    | Done Panic => Done Panic
    | Done Err => Done (Ok None)
    | Done (Ok x) => Done (Ok (Some x))
    end
  else Done (Ok None).

(** The calls of GetEntityConfiguration, of the resolver etc. for the subordinate evaluated
    at [n :: p] have these positions; the configuration of the trust anchor is obtained at
    most once per collect call ([taOnce]), at a position of that call.
    Used at discovery.go:227-457. *)
Definition at_ta (q : list nat) : list nat := 3 :: tl q.

(** discovery.go:309-434 for an entity configuration with metadata [m]: the collected
    entity, or None if it is not included. *)
Definition evaluate (fuel : nat) (ce : cenv) (rq : crequest) (q : list nat) (sub : string) (cfg : stmt) (m : metadata)
  : run (option collected) :=
  let e := ce_env ce in
  let types := guess_entity_types m in
  let ta := te_config e (at_ta q) (cr_anchor rq) in
  rbind (marks_ok fuel e (5 :: q) 0 (cr_marks rq) (infos_of cfg) ta) (fun mk =>
    if type_ok rq types && name_ok ce rq (guess_display_names m) && mk then
      rbind (Done (ui_infos rq m)) (fun ui =>
      rbind (resolved fuel e (4 :: q) rq sub) (fun pl =>
      let marks1 := match pl with Some x => if asks rq "trust_marks" then pl_marks x else [] | None => [] end in
      rbind (match marks1, ta with
             | [], Some ta' => if asks rq "trust_marks" then verified_marks fuel e (6 :: q) (infos_of cfg) ta'
                               else Done (Ok [])
             | _, _ => Done (Ok marks1)
             end) (fun marks =>
      Done (Ok (Some (Coll sub (if wants rq "entity_types" then types else []) ui marks
                        (match pl with Some x => if asks rq "trust_chain" then pl_chain x else [] | None => [] end)
                        (match pl with Some x => if asks rq "metadata" then pl_metadata x else None | None => None end)))))))
    else Done (Ok None)).

(** stmt.Metadata.FederationEntity.FederationListEndpoint, "" if a pointer is nil:
    discovery.go:284-288,436-437 *)
Definition list_endpoint (s : stmt) : string :=
  match st_metadata s with
  | Some m => match md_fe m with Some fe => field_str "FederationListEndpoint" fe | None => "" end
  | None => ""
  end.

(** One subordinate: discovery.go:299-437. The result: the entity to report, and whether the
    subordinate is itself asked for its subordinates. *)
Definition entity_answer (fuel : nat) (ce : cenv) (rq : crequest) (q : list nat) (sub : string)
  : run (option collected * bool) :=
  match te_config (ce_env ce) (2 :: q) sub with
  | None => Done (Ok (None, false))
  | Some cfg =>
      match st_metadata cfg with
      | None => Done (Ok (None, false))
      | Some m => rbind (evaluate fuel ce rq q sub cfg m)
                    (fun r => Done (Ok (r, negb (String.eqb (list_endpoint cfg) ""))))
      end
  end.

(** The subordinates an authority lists: discovery.go:278-294; None if it does not respond
    or has no list endpoint. *)
Definition listing_answer (ce : cenv) (p : list nat) (a : string) : option (list string) :=
  match te_config (ce_env ce) (1 :: p) a with
  | None => None
  | Some cfg => if String.eqb (list_endpoint cfg) "" then None else ce_list ce p (list_endpoint cfg)
  end.

(** ** The goroutines of collect: discovery.go:227-458 *)

(** What the collector learns from the network, by position of the request; see
    [listing_answer] and [entity_answer]. Used at discovery.go:227-457. *)
Record dworld := DWorld {
  dw_listing : list nat -> string -> option (list string);
  dw_entity : list nat -> string -> option collected * bool }.

(** maxCollectWorkers: discovery.go:225 *)
Definition max_workers : nat := 128.

(** A goroutine started by [run] (discovery.go:259-267), by what it does next.
    - [Check], [Add]: visitedEntities.Has, Add (lines 272,276). Both are single steps here;
      the set has no lock, see [races] in SpecDiscovery.v.
    - [Fetch]: lines 278-294. [Spawn]: the loop over the listed subordinates from line 296 on,
      about to call [run] (which blocks until a token is free).
    - [Sub]: lines 299-431. [Send]: about to send on entityChan (433), [b] is asked for its
      subordinates afterwards if [nest]. [Nest]: about to call collect (438). [Wait]: waiting
      for that call. [Forward]: the loop 439-441.
    - [Release], [Finish]: the deferred functions (264, 263). *)
Inductive task :=
| Check (p : list nat) (a : string)
| Add (p : list nat) (a : string)
| Fetch (p : list nat) (a : string)
| Spawn (p : list nat) (n : nat) (l : list string)
| Sub (p : list nat) (b : string)
| Send (e : collected) (nest : bool) (p : list nat) (b : string)
| Nest (p : list nat) (b : string)
| Wait (f : frame)
| Forward (l : list collected)
| Release
| Finish
(** A call of collect: tokens taken from [sem], the counter of [wg], the entity received but
    not yet recorded by the collecting goroutine (244-254), the result so far, and the
    goroutines. collect is always called with one authority; the loop 269-448 then only
    starts the first goroutine. Used at discovery.go:227-457. *)
with frame := Frame (sem wg : nat) (got : option collected) (out : list collected) (tasks : list task).

Definition f_out (f : frame) : list collected := let 'Frame _ _ _ out _ := f in out.
Definition fresh (p : list nat) (a : string) : frame := Frame 1 1 None [] [Check p a].

(** The collecting goroutine records an entity unless one with this id was seen: 245-252.
    ([seen] holds the ids of [entities].). Used at discovery.go:244-254. *)
Definition record_entity (e : collected) (out : list collected) : list collected :=
  if mem (ce_id e) (map ce_id out) then out else (out ++ [e])%list.

(** wg.Wait returned, entityChan is closed and drained, and collect returns: 450-457.
    Used at discovery.go:450-457. *)
Definition finished (f : frame) : bool :=
  let 'Frame _ wg got _ _ := f in match wg, got with 0, None => true | _, _ => false end.

(** Which goroutine makes the next step: the collecting goroutine of this call, or the
    [i]-th goroutine started by it (if that waits for another call of collect: the given
    goroutine of that call). Used at discovery.go:227-457. *)
Inductive choice := Collect | At (i : nat) (c : choice).

Fixpoint del_nth {A} (i : nat) (l : list A) : list A :=
  match l, i with [], _ => [] | _ :: l', 0 => l' | y :: l', S i' => y :: del_nth i' l' end.

Definition after_eval (r : option collected * bool) (p : list nat) (b : string) : task :=
  match r with
  | (Some e, nest) => Send e nest p b
  | (None, true) => Nest p b
  | (None, false) => Release
  end.

(** One step; None if the chosen goroutine is blocked or does not exist. [V] is the set of
    visited entities. Used at discovery.go:227-457. *)
Fixpoint step (w : dworld) (c : choice) (V : list string) (f : frame) : option (list string * frame) :=
  let 'Frame sem wg got out ts := f in
  match c with
  | Collect => match got with Some e => Some (V, Frame sem wg None (record_entity e out) ts) | None => None end
  | At i c' =>
      let become t := Some (V, Frame sem wg got out (set_nth i t ts)) in
      match nth_error ts i with
      | None => None
      | Some (Check p a) => become (if mem a V then Release else Add p a)
      | Some (Add p a) => Some (a :: V, Frame sem wg got out (set_nth i (Fetch p a) ts))
      | Some (Fetch p a) => become (match dw_listing w p a with Some l => Spawn p 1 l | None => Release end)
      | Some (Spawn p n []) => become Release
      | Some (Spawn p n (b :: l)) =>
          if Nat.ltb sem max_workers
          then Some (V, Frame (S sem) (S wg) got out (set_nth i (Spawn p (S n) l) ts ++ [Sub (n :: p) b])%list)
          else None
      | Some (Sub p b) => become (after_eval (dw_entity w p b) p b)
      | Some (Send e nest p b) =>
          match got with
          | None => Some (V, Frame sem wg (Some e) out (set_nth i (if nest then Nest p b else Release) ts))
          | Some _ => None
          end
      | Some (Nest p b) => become (Wait (fresh (0 :: p) b))
      | Some (Wait g) =>
          if finished g then become (Forward (f_out g))
          else match step w c' V g with
               | Some (V', g') => Some (V', Frame sem wg got out (set_nth i (Wait g') ts))
               | None => None
               end
      | Some (Forward []) => become Release
      | Some (Forward (e :: l)) =>
          match got with
          | None => Some (V, Frame sem wg (Some e) out (set_nth i (Forward l) ts))
          | Some _ => None
          end
      | Some Release => Some (V, Frame (pred sem) wg got out (set_nth i Finish ts))
      | Some Finish => Some (V, Frame sem (pred wg) got out (del_nth i ts))
      end
  end.

(** SimpleEntityCollector.CollectEntities: discovery.go:220-223: an execution. *)
Definition start (ta : string) : list string * frame := ([], fresh [] ta).
Fixpoint exec (w : dworld) (cs : list choice) (s : list string * frame) : option (list string * frame) :=
  match cs with
  | [] => Some s
  | c :: cs' => match step w c (fst s) (snd s) with Some s' => exec w cs' s' | None => None end
  end.

(** ** Filters and the other collectors *)

(** filterableVerifiedChainsEntityCollector.CollectEntities: discovery.go:515-532. A filter
    is called with the position of the entity. *)
Fixpoint approve (fs : list (nat -> collected -> bool)) (approved : bool) (i : nat) (e : collected) : bool :=
  match fs with
  | [] => approved
  | f :: fs' => if f i e then approve fs' true i e else false
  end.
Fixpoint filter_entities (fs : list (nat -> collected -> bool)) (i : nat) (l : list collected) : list collected :=
  match l with
  | [] => []
  | e :: l' => if approve fs false i e then e :: filter_entities fs (S i) l' else filter_entities fs (S i) l'
  end.
(** FilterableVerifiedChainsEntityCollector, VerifiedChainsEntityCollector: discovery.go:
    510-512,535-547. [valid] is the filter EntityCollectionFilterVerifiedChains. *)
Definition filterable (valid : nat -> collected -> bool) (fs : list (nat -> collected -> bool)) (l : list collected)
  : list collected := filter_entities (valid :: fs) 0 l.
(** EntityCollectionFilterVerifiedChains.Filter: discovery.go:556-564; an answer is only
    obtained if the resolver neither panics nor diverges. *)
Definition chain_answer (fuel : nat) (e : env) (p : list nat) (ta : string) (x : collected) : run bool :=
  rbind (resolve_possible fuel e (te_default e) p (Req (ce_id x) [ta] [])) (fun r => Done (Ok (fst r))).

(** getMetadataForCollectedEntity: discovery.go:595-606 (errors ignored). *)
Definition metadata_of (fuel : nat) (e : env) (p : list nat) (tas : list string) (x : collected) : run (option metadata) :=
  match ce_metadata x with
  | Some m => Done (Ok (Some m))
  | None => match resolve_metadata fuel e (te_default e) p (Req (ce_id x) tas []) with
            | OutOfFuel => OutOfFuel
            | Done Panic => Done Panic
            | Done Err => Done (Ok None)
            | Done (Ok m) => Done (Ok m)
            end
  end.
Definition strings (l : list string) : GoVal.gval := VSlice TStr false (map VStr l).
Definition op_list (name : string) (op : emeta) : list string :=
  match em_get name op with
  | Some (VSlice _ _ l) => map str_of l
  | _ => []
  end.
(** EntityCollectionFilterOPSupportedGrantTypesIncludes, ...ScopesIncludes: discovery.go:
    611-647, with the field GrantTypesSupported or ScopesSupported. *)
Definition supports_all (name : string) (needed : list string) (m : option metadata) : res bool :=
  match m with
  | Some m' => match md_op m' with
               | Some op => is_subset_of (strings needed) (match em_get name op with Some v => v | None => VNil end)
               | None => Ok false
               end
  | None => Ok false
  end.
(** discovery.go:611-627 and 631-647: the two filters on metadata. *)
Definition supports_grants (needed : list string) (m : option metadata) : res bool := supports_all "GrantTypesSupported" needed m.
Definition supports_scopes (needed : list string) (m : option metadata) : res bool := supports_all "ScopesSupported" needed m.
(** EntityCollectionFilterOPSupportsExplicitRegistration, ...AutomaticRegistration:
    discovery.go:651-690, with "explicit" or "automatic". *)
Definition registers (how : string) (m : option metadata) : bool :=
  match m with
  | Some m' => match md_op m' with
               | Some op => mem how (op_list "ClientRegistrationTypesSupported" op)
               | None => false
               end
  | None => false
  end.
(** EntityCollectionFilterOPs: discovery.go:693-702 *)
Definition is_op (x : collected) : bool := mem "openid_provider" (ce_types x).

(** SimpleOPCollector: discovery.go:175-178: the request passed on. *)
Definition op_request (rq : crequest) : crequest :=
  CReq (cr_from rq) (cr_limit rq) (cr_marks rq) (cr_anchor rq) (Some ["openid_provider"]) (cr_name rq) (cr_claims rq).

(** SmartRemoteEntityCollector.CollectEntities: discovery.go:767-795. [remote] is
    SimpleRemoteEntityCollector.CollectEntities (discovery.go:734-754, None for nil);
    [endpoint] the federation_collection_endpoint of an anchor's configuration ("" if it is
    not available). None: the local collector is used. *)
Fixpoint ask_collectors (endpoint : nat -> string -> string) (remote : nat -> string -> option (list collected)) (i : nat)
         (ids : list string) : option (list collected) :=
  match ids with
  | [] => None
  | a :: ids' =>
      let ep := endpoint i a in
      if String.eqb ep "" then ask_collectors endpoint remote (S i) ids'
      else match remote i ep with
           | Some l => Some l
           | None => ask_collectors endpoint remote (S i) ids'
           end
  end.
Definition smart_collect (endpoint : nat -> string -> string) (remote : nat -> string -> option (list collected))
           (tas : list string) (ta : string) : option (list collected) :=
  ask_collectors endpoint remote 0 (ta :: filter (fun x => negb (String.eqb x ta)) tas).
