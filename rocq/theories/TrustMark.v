(** Trust marks (trustmark.go) and metadata resolvers (metadata_resolver.go,
    federation.go:128-150). *)
From Verif Require Import Base GoVal Policy Schema Metadata Chain Resolver FloatTime Json.
Local Open Scope string_scope.

(** JWT type headers: oidfedconst/constants.go:16-18 *)
Definition typ_mark := "trust-mark+jwt".
Definition typ_delegation := "trust-mark-delegation+jwt".
Definition typ_resolve := "resolve-response+jwt".

(** apimodel.ResolveRequest: apimodel/resolve.go:4-8 *)
Record request := Req { rq_sub : string; rq_anchors : list string; rq_types : list string }.

(** TrustMark: trustmark.go:150-162. [mk_msg] is the parsed JWT (jwtMsg.RawJWT), None when
    the mark was not obtained by parsing. The cache of the parsed delegation is not modelled:
    it is filled from DelegationJWT only. *)
Record mark := Mark {
  mk_iss : string; mk_sub : string; mk_type : string; mk_iat : time; mk_logo : string;
  mk_exp : option time; mk_ref : string; mk_deleg : string; mk_extra : smap json; mk_msg : option string }.

(** DelegationJWT: trustmark.go:315-324 *)
Record delegation := Deleg {
  dg_iss : string; dg_sub : string; dg_type : string; dg_iat : time; dg_exp : option time;
  dg_ref : string; dg_extra : smap json; dg_msg : option string }.

(** TrustMarkInfo: trustmark.go:61-66; [ti_mark] is the cached parsed mark. *)
Record info := Info { ti_type : string; ti_jwt : string; ti_extra : smap json; ti_mark : option mark }.

(** ResolveResponsePayload: trustresolver.go:81-86 *)
Record payload := Payload { pl_metadata : option metadata; pl_marks : list info; pl_chain : list string }.
Definition no_payload : payload := Payload None [] [].

(** What a resolve endpoint answers: the request fails, an error document, or a body.
    Used at metadata_resolver.go:110-139. *)
Inductive answer := ATransport | AError (code : string) | ABody (body : string).

(** The MetadataResolver implementations of the library: metadata_resolver.go:31,97,203 *)
Inductive resolver := LocalR | SimpleR (endpoint : string) | SmartR.

(** The outside world. A call of a resolver is named by a list of positions: verifying the
    mark in position i, or asking the anchor in position i, while in call p is call i :: p.
    So repeated requests may be answered differently. [te_world p rq] is what a local
    resolution sees; [te_config] GetEntityConfiguration (None: error); [te_remote] the answer
    of a resolve endpoint; [te_now p b] the clock when a mark (b = false) or a delegation
    (b = true) is checked. The remaining ones are functions: [te_parse jwt] the typ header
    and payload of a JWS, [te_stmt] ParseEntityStatement, [te_payload] the decoding of a
    resolve response payload, [te_verify] jws.Verify with a non-empty key set, [te_swaps]
    the swaps made by sort.Slice on more than 12 chains. [te_default] is
    DefaultMetadataResolver (metadata_resolver.go:26). *)
Record env := Env {
  te_default : resolver;
  te_world : list nat -> request -> world;
  te_config : list nat -> string -> option stmt;
  te_remote : list nat -> string -> request -> answer;
  te_now : list nat -> bool -> time;
  te_parse : string -> option (string * json);
  te_stmt : string -> option stmt;
  te_payload : json -> option payload;
  te_verify : string -> list string -> bool;
  te_swaps : chains -> list (nat * nat) }.

(** VerifyWithSet: internal/jwx/jws.go:51-59; the message is nil for None. *)
Definition verify_with_set (e : env) (msg : option string) (ks : jwks) : bool :=
  match msg, ks with
  | Some m, Some (k :: l) => te_verify e m (k :: l)
  | _, _ => false
  end.

(** Field values after decoding. Used at trustmark.go:150-187,315-350. *)
Definition gstr (v : gval) : string := match v with GStr s => s | _ => "" end.
Definition gtime (v : gval) : time := match v with GTime t => t | _ => zero_time end.
Definition gtime_ptr (v : gval) : option time := match v with GTimePtr t => t | _ => None end.
Definition gnth (i : nat) (l : list gval) : gval := nth i l (GRaw JNull).

Definition mark_of (vs : list gval) (x : smap json) (msg : option string) : mark :=
  Mark (gstr (gnth 0 vs)) (gstr (gnth 1 vs)) (gstr (gnth 2 vs)) (gtime (gnth 3 vs)) (gstr (gnth 4 vs))
       (gtime_ptr (gnth 5 vs)) (gstr (gnth 6 vs)) (gstr (gnth 7 vs)) x msg.
Definition mark_values (m : mark) : list gval :=
  [GStr (mk_iss m); GStr (mk_sub m); GStr (mk_type m); GTime (mk_iat m); GStr (mk_logo m);
   GTimePtr (mk_exp m); GStr (mk_ref m); GStr (mk_deleg m)].
Definition deleg_of (vs : list gval) (x : smap json) (msg : option string) : delegation :=
  Deleg (gstr (gnth 0 vs)) (gstr (gnth 1 vs)) (gstr (gnth 2 vs)) (gtime (gnth 3 vs))
        (gtime_ptr (gnth 4 vs)) (gstr (gnth 5 vs)) x msg.
Definition deleg_values (d : delegation) : list gval :=
  [GStr (dg_iss d); GStr (dg_sub d); GStr (dg_type d); GTime (dg_iat d); GTimePtr (dg_exp d); GStr (dg_ref d)].

(** ParseTrustMark: trustmark.go:80-93 *)
Definition parse_mark (e : env) (jwt : string) : res mark :=
  match te_parse e jwt with
  | None => Err
  | Some (typ, j) =>
      if negb (String.eqb typ typ_mark) then Err
      else '(vs, x) <- unmarshal_with_extra mark_fields j (zeros mark_fields) ;; Ok (mark_of vs x (Some jwt))
  end.

(** parseDelegationJWT: trustmark.go:189-204 *)
Definition parse_delegation (e : env) (jwt : string) : res delegation :=
  match te_parse e jwt with
  | None => Err
  | Some (typ, j) =>
      if negb (String.eqb typ typ_delegation) then Err
      else '(vs, x) <- unmarshal_with_extra delegation_fields j (zeros delegation_fields) ;;
           Ok (deleg_of vs x (Some jwt))
  end.

(** TrustMark.Delegation: trustmark.go:207-216. None: no delegation. *)
Definition mark_delegation (e : env) (m : mark) : res (option delegation) :=
  if String.eqb (mk_deleg m) "" then Ok None else d <- parse_delegation e (mk_deleg m) ;; Ok (Some d).

(** TrustMarkInfo.UnmarshalJSON: trustmark.go:97-107, into the existing object [t]. *)
Definition unmarshal_info (j : json) (t : info) : res info :=
  '(vs, x) <- unmarshal_with_extra mark_info_fields j [GStr (ti_type t); GStr (ti_jwt t)] ;;
  Ok (Info (gstr (gnth 0 vs)) (gstr (gnth 1 vs)) x (ti_mark t)).

(** TrustMarkInfo.TrustMark: trustmark.go:110-119; also returns the info afterwards. *)
Definition info_mark (e : env) (t : info) : res (mark * info) :=
  match ti_mark t with
  | Some m =>
      match mk_msg m with
      | Some _ => Ok (m, t)
      | None => m' <- parse_mark e (ti_jwt t) ;; Ok (m', Info (ti_type t) (ti_jwt t) (ti_extra t) (Some m'))
      end
  | None => m' <- parse_mark e (ti_jwt t) ;; Ok (m', Info (ti_type t) (ti_jwt t) (ti_extra t) (Some m'))
  end.

(** DelegationJWT.VerifyFederation, VerifyExternal: trustmark.go:352-371 *)
Definition deleg_verify_external (e : env) (p : list nat) (d : delegation) (ks : jwks) : res unit :=
  _ <- verify_time_ptr (te_now e p true) (Some (dg_iat d)) (dg_exp d) ;;
  if verify_with_set e (dg_msg d) ks then Ok tt else Err.
Definition deleg_verify_federation (e : env) (p : list nat) (d : delegation) (ta : stmt) : res unit :=
  _ <- verify_time_ptr (te_now e p true) (Some (dg_iat d)) (dg_exp d) ;;
  match lookup (dg_type d) (st_mark_owners ta) with
  | None => Err
  | Some (_, ks) => if verify_with_set e (dg_msg d) ks then Ok tt else Err
  end.

(** TrustMark.VerifyExternal: trustmark.go:283-312 *)
Definition mark_verify_external (e : env) (p : list nat) (m : mark) (ks : jwks) (tmo : list (string * jwks)) : res unit :=
  _ <- verify_time_ptr (te_now e p false) (Some (mk_iat m)) (mk_exp m) ;;
  if negb (verify_with_set e (mk_msg m) ks) then Err
  else match tmo with
  | [] => Ok tt
  | (owner, oks) :: _ =>
      d <- mark_delegation e m ;;
      match d with
      | None => Err
      | Some d =>
          if negb (String.eqb (dg_type d) (mk_type m)) then Err
          else if negb (String.eqb (dg_sub d) (mk_iss m)) then Err
          else if negb (String.eqb (dg_iss d) owner) then Err
          else deleg_verify_external e p d oks
      end
  end.

(** TrustMarkInfo.VerifyExternal: trustmark.go:135-147; also the info afterwards. *)
Definition info_verify_external (e : env) (p : list nat) (t : info) (ks : jwks) (tmo : list (string * jwks)) : res unit * info :=
  match info_mark e t with
  | Panic => (Panic, t)
  | Err => (Err, t)
  | Ok (m, t') =>
      (if negb (String.eqb (mk_type m) (ti_type t)) then Err else mark_verify_external e p m ks tmo, t')
  end.

(** Sequencing for computations that may run out of fuel. Used at trustmark.go:218-258. *)
Definition rbind {A B} (a : run A) (f : A -> run B) : run B :=
  match a with
  | OutOfFuel => OutOfFuel
  | Done (Ok x) => f x
  | Done Err => Done Err
  | Done Panic => Done Panic
  end.

(** TrustMark.VerifyFederation: trustmark.go:261-279; [keys p iss ta] is
    getTrustMarkIssuerJWKS (defined below). *)
Definition mark_verify_federation (keys : list nat -> string -> stmt -> run jwks) (e : env) (p : list nat)
           (m : mark) (ta : stmt) : run unit :=
  if match lookup (mk_type m) (st_mark_issuers ta) with Some l => negb (mem (mk_iss m) l) | None => false end
  then Done Err
  else rbind (keys p (mk_iss m) ta) (fun ks =>
    match lookup (mk_type m) (st_mark_owners ta) with
    | None => Done (mark_verify_external e p m ks [])
    | Some tmo => Done (mark_verify_external e p m ks [tmo])
    end).

(** TrustMarkInfo.VerifyFederation: trustmark.go:122-131; also the info afterwards. *)
Definition info_verify_federation (keys : list nat -> string -> stmt -> run jwks) (e : env) (p : list nat)
           (t : info) (ta : stmt) : run unit * info :=
  match info_mark e t with
  | Panic => (Done Panic, t)
  | Err => (Done Err, t)
  | Ok (m, t') =>
      (if negb (String.eqb (mk_type m) (ti_type t)) then Done Err else mark_verify_federation keys e p m ta, t')
  end.

(** The loops of VerifiedFederation and VerifiedExternal: trustmark.go:22-43, from position
    [i] on. *)
Fixpoint verified_federation (keys : list nat -> string -> stmt -> run jwks) (e : env) (p : list nat) (i : nat)
         (ts : list info) (ta : stmt) : run (list info) :=
  match ts with
  | [] => Done (Ok [])
  | t :: ts' =>
      match info_verify_federation keys e (i :: p) t ta with
      | (OutOfFuel, _) => OutOfFuel
      | (Done Panic, _) => Done Panic
      | (Done Err, _) => verified_federation keys e p (S i) ts' ta
      | (Done (Ok _), t') => rbind (verified_federation keys e p (S i) ts' ta) (fun r => Done (Ok (t' :: r)))
      end
  end.
Fixpoint verified_external (e : env) (p : list nat) (i : nat) (ts : list info) (ks : jwks)
         (tmo : list (string * jwks)) : res (list info) :=
  match ts with
  | [] => Ok []
  | t :: ts' =>
      match info_verify_external e (i :: p) t ks tmo with
      | (Panic, _) => Panic
      | (Err, _) => verified_external e p (S i) ts' ks tmo
      | (Ok _, t') => r <- verified_external e p (S i) ts' ks tmo ;; Ok (t' :: r)
      end
  end.

(** Find, FindByID: trustmark.go:46-58 *)
Fixpoint find_info (f : info -> bool) (ts : list info) : option info :=
  match ts with [] => None | t :: ts' => if f t then Some t else find_info f ts' end.
Definition find_by_id (id : string) (ts : list info) : option info :=
  find_info (fun t => String.eqb (ti_type t) id) ts.

(** ** Metadata resolvers *)

(** SortAsc(TrustChainScoringPathLen): trustchainfilter.go:22-35,53-55 *)
Definition sort_path_len (e : env) (cs : chains) : chains :=
  if Nat.leb (List.length cs) 12 then sort_asc (fun c => Z.of_nat (path_len c)) cs
  else sort_swaps (te_swaps e cs) cs.

(** The loop metadata_resolver.go:58-67. *)
Fixpoint first_with_metadata (cs : chains) : res (option metadata * chain) :=
  match cs with
  | [] => Err
  | c :: cs' => match chain_metadata c with
                | Ok m => Ok (m, c)
                | Err => first_with_metadata cs'
                | Panic => Panic
                end
  end.

(** resolveResponsePayloadWithoutTrustMarks: metadata_resolver.go:42-68 *)
Definition local_plain (fuel : nat) (e : env) (p : list nat) (rq : request) : run (payload * chain) :=
  rbind (resolve_valid fuel (te_world e p rq) (map (fun id => Anchor id None) (rq_anchors rq)) (rq_types rq) (rq_sub rq))
    (fun cs => match cs with
               | [] => Done Err
               | _ => Done ('(m, c) <- first_with_metadata (sort_path_len e cs) ;; Ok (Payload m [] (messages c), c))
               end).

(** LocalMetadataResolver.Resolve: metadata_resolver.go:34-40 *)
Definition local_resolve (fuel : nat) (e : env) (p : list nat) (rq : request) : run (option metadata) :=
  rbind (local_plain fuel e p rq) (fun r => Done (Ok (pl_metadata (fst r)))).

(** The TrustMarks of a statement: entitystatement.go:81. *)
Definition infos_of (s : stmt) : list info := map (fun tj => Info (fst tj) (snd tj) [] None) (st_marks s).

(** LocalMetadataResolver.ResolveResponsePayload: metadata_resolver.go:71-81 *)
Definition local_payload (keys : list nat -> string -> stmt -> run jwks) (fuel : nat) (e : env) (p : list nat)
           (rq : request) : run payload :=
  rbind (local_plain fuel e p rq) (fun r =>
    match snd r with
    | [] => Done Panic
    | leaf :: _ =>
        rbind (verified_federation keys e p 0 (infos_of leaf) (last (snd r) leaf))
          (fun ms => Done (Ok (Payload (pl_metadata (fst r)) ms (pl_chain (fst r)))))
    end).

(** ResolvePossible: metadata_resolver.go:84-93. The result is (validConfirmed,
    invalidConfirmed). *)
Definition local_possible (fuel : nat) (e : env) (p : list nat) (rq : request) : run (bool * bool) :=
  rbind (resolve_valid fuel (te_world e p rq) (map (fun id => Anchor id None) (rq_anchors rq)) (rq_types rq) (rq_sub rq))
    (fun cs => let valid := match cs with [] => false | _ => true end in Done (Ok (valid, negb valid))).

(** metadata_resolver.go:101-107 *)
Inductive status := SUnknown | SValid | SOnlyChain | SInvalid | SNotAcceptable.

(** ParseResolveResponse: metadata_resolver.go:184-197. (The signature is not verified, and
    of the response only the payload is decoded, see Json.v.) *)
Definition parse_response (e : env) (body : string) : res payload :=
  match te_parse e body with
  | None => Err
  | Some (typ, j) =>
      if negb (String.eqb typ typ_resolve) then Err
      else match te_payload e j with Some pl => Ok pl | None => Err end
  end.

(** SimpleRemoteMetadataResolver.ResolveResponse: metadata_resolver.go:110-138. The error
    codes: error.go:10-22. *)
Definition status_of (code : string) : status :=
  if String.eqb code "invalid_subject" || String.eqb code "invalid_trust_anchor" then SNotAcceptable
  else if String.eqb code "invalid_trust_chain" then SInvalid
  else if String.eqb code "invalid_metadata" then SOnlyChain
  else SUnknown.
Definition remote_response (e : env) (p : list nat) (ep : string) (rq : request) : res (option payload) * status :=
  match te_remote e p ep rq with
  | ATransport => (Err, SUnknown)
  | AError code => (Ok None, status_of code)
  | ABody b => (pl <- parse_response e b ;; Ok (Some pl), SValid)
  end.

(** SimpleRemoteMetadataResolver.ResolveResponsePayload, Resolve:
    metadata_resolver.go:141-164 *)
Definition remote_payload (e : env) (p : list nat) (ep : string) (rq : request) : res payload :=
  match remote_response e p ep rq with
  | (Ok (Some pl), SValid) => Ok pl
  | (Panic, _) => Panic
  | _ => Err
  end.
Definition remote_resolve (e : env) (p : list nat) (ep : string) (rq : request) : res (option metadata) :=
  pl <- remote_payload e p ep rq ;; Ok (pl_metadata pl).

(** SimpleRemoteMetadataResolver.ResolvePossible: metadata_resolver.go:167-181 *)
Definition remote_possible (e : env) (p : list nat) (ep : string) (rq : request) : bool * bool :=
  match remote_response e p ep rq with
  | (Ok _, SValid) | (Ok _, SOnlyChain) => (true, false)
  | (Ok _, SInvalid) => (false, true)
  | (Ok _, _) => (false, false)
  | _ => (false, true)
  end.

(** The resolve endpoint published in an entity configuration:
    metadata_resolver.go:224-227,252-255 *)
Definition resolve_endpoint (s : stmt) : string :=
  match st_metadata s with
  | Some m => match md_fe m with
              | Some fe => match em_get "FederationResolveEndpoint" fe with Some v => str_of v | None => "" end
              | None => ""
              end
  | None => ""
  end.

(** The loop over the trust anchors: metadata_resolver.go:218-240. None: no anchor gave an
    answer. *)
Fixpoint ask_anchors (e : env) (p : list nat) (i : nat) (ids : list string) (rq : request) : option payload :=
  match ids with
  | [] => None
  | id :: ids' =>
      match te_config e (i :: p) id with
      | None => ask_anchors e p (S i) ids' rq
      | Some ec =>
          if String.eqb (resolve_endpoint ec) "" then ask_anchors e p (S i) ids' rq
          else match remote_payload e (i :: p) (resolve_endpoint ec) rq with
               | Ok pl => Some pl
               | _ => ask_anchors e p (S i) ids' rq
               end
      end
  end.

(** SmartRemoteMetadataResolver.ResolveResponsePayload: metadata_resolver.go:215-242 *)
Definition smart_payload (keys : list nat -> string -> stmt -> run jwks) (fuel : nat) (e : env) (p : list nat)
           (rq : request) : run payload :=
  match ask_anchors e p 0 (rq_anchors rq) rq with
  | Some pl => Done (Ok pl)
  | None => local_payload keys fuel e p rq
  end.

(** The loop of SmartRemoteMetadataResolver.ResolvePossible: metadata_resolver.go:246-269 *)
Fixpoint ask_possible (e : env) (p : list nat) (i : nat) (ids : list string) (rq : request) : option (bool * bool) :=
  match ids with
  | [] => None
  | id :: ids' =>
      match te_config e (i :: p) id with
      | None => ask_possible e p (S i) ids' rq
      | Some ec =>
          if String.eqb (resolve_endpoint ec) "" then ask_possible e p (S i) ids' rq
          else let '(v, n) := remote_possible e (i :: p) (resolve_endpoint ec) rq in
               if v then Some (true, false) else if n then Some (false, true)
               else ask_possible e p (S i) ids' rq
      end
  end.
(** SmartRemoteMetadataResolver.ResolvePossible: metadata_resolver.go:245-271 *)
Definition smart_possible (fuel : nat) (e : env) (p : list nat) (rq : request) : run (bool * bool) :=
  match ask_possible e p 0 (rq_anchors rq) rq with
  | Some r => Done (Ok r)
  | None => local_possible fuel e p rq
  end.

(** JWKS.Len on a JWKS without a set is a method call on a nil interface.
    Used at trustmark.go:261-312. *)
Definition jwks_len (ks : jwks) : res nat :=
  match ks with None => Panic | Some l => Ok (List.length l) end.

(** getTrustMarkIssuerJWKS: trustmark.go:218-258. With the smart resolver as default the
    local resolution behind it verifies the trust marks of the issuer, which calls this
    function again; [fuel] bounds the depth of that recursion (and that of [resolve]). *)
Fixpoint issuer_keys (fuel : nat) (e : env) (p : list nat) (iss : string) (ta : stmt) : run jwks :=
  match fuel with
  | O => OutOfFuel
  | S f =>
      if String.eqb iss (st_sub ta) then Done (Ok (st_jwks ta))
      else
        let rq := Req iss [st_sub ta] [] in
        rbind (match te_default e with
               | LocalR => rbind (local_plain f e p rq) (fun r => Done (Ok (fst r)))
               | SimpleR ep => Done (remote_payload e p ep rq)
               | SmartR => smart_payload (issuer_keys f e) f e p rq
               end) (fun pl =>
          match (match pl_chain pl with j :: _ => te_stmt e j | [] => te_config e p iss end) with
          | None => Done Err
          | Some tmi => Done (n <- jwks_len (st_jwks tmi) ;; if Nat.eqb n 0 then Err else Ok (st_jwks tmi))
          end)
  end.

(** The functions above as called by users of the library.
    Used at trustmark.go:261-312, metadata_resolver.go:42-82. *)
Definition verify_mark (fuel : nat) (e : env) (p : list nat) (t : info) (ta : stmt) : run unit :=
  fst (info_verify_federation (issuer_keys fuel e) e p t ta).
Definition verified_marks (fuel : nat) (e : env) (p : list nat) (ts : list info) (ta : stmt) : run (list info) :=
  verified_federation (issuer_keys fuel e) e p 0 ts ta.
Definition resolve_payload (fuel : nat) (e : env) (r : resolver) (p : list nat) (rq : request) : run payload :=
  match r with
  | LocalR => local_payload (issuer_keys fuel e) fuel e p rq
  | SimpleR ep => Done (remote_payload e p ep rq)
  | SmartR => smart_payload (issuer_keys fuel e) fuel e p rq
  end.
(** Resolve: metadata_resolver.go:34-40,141-150,206-212. Only the local resolver does not
    verify trust marks here. *)
Definition resolve_metadata (fuel : nat) (e : env) (r : resolver) (p : list nat) (rq : request) : run (option metadata) :=
  match r with
  | LocalR => local_resolve fuel e p rq
  | SimpleR ep => Done (remote_resolve e p ep rq)
  | SmartR => rbind (smart_payload (issuer_keys fuel e) fuel e p rq) (fun pl => Done (Ok (pl_metadata pl)))
  end.
Definition resolve_possible (fuel : nat) (e : env) (r : resolver) (p : list nat) (rq : request) : run (bool * bool) :=
  match r with
  | LocalR => local_possible fuel e p rq
  | SimpleR ep => Done (Ok (remote_possible e p ep rq))
  | SmartR => smart_possible fuel e p rq
  end.

(** FederationLeaf.ResolveOPMetadata: federation.go:130-150. The cache of OP metadata is
    only ever read (cache.KeyOPMetadata is not written anywhere), so the lookup finds
    nothing. metadata.OpenIDProvider panics on nil metadata. *)
Definition resolve_op (fuel : nat) (e : env) (p : list nat) (anchors : list anchor) (issuer : string) : run (option emeta) :=
  rbind (resolve_metadata fuel e (te_default e) p (Req issuer (anchor_ids anchors) ["openid_provider"]))
    (fun m => match m with None => Done Panic | Some m => Done (Ok (md_op m)) end).

(** ** Issuing *)

(** TrustMarkSpec: trustmark.go:381-389; OwnedTrustMark: trustmark.go:519-524. Durations in
    nanoseconds. *)
Record mark_spec := MarkSpec {
  ms_type : string; ms_lifetime : Z; ms_ref : string; ms_logo : string; ms_extra : smap json;
  ms_include : bool; ms_deleg : string }.
Record owned := Owned { ow_id : string; ow_lifetime : Z; ow_ref : string; ow_extra : smap json }.

(** NewTrustMarkIssuer, AddTrustMark: trustmark.go:440-457. *)
Definition new_issuer (specs : list mark_spec) : smap mark_spec :=
  fold_left (fun m s => insert (ms_type s) s m) specs [].
Definition add_mark (spec : mark_spec) (m : smap mark_spec) : smap mark_spec := insert (ms_type spec) spec m.
(** TrustMarkTypes: trustmark.go:460-466, in some order. *)
Definition mark_types (m : smap mark_spec) : list string := keys m.

(** json.Marshal of a TrustMark and of a DelegationJWT, signed: trustmark.go:166-173,
    328-335, jwtsigning.go:37-48,111-118. [sign typ j] is SignWithType with the signer's key,
    None when there is no key or signing fails. *)
Definition sign_mark (sign : string -> json -> option string) (m : mark) : res string :=
  match sign typ_mark (marshal mark_fields (mark_values m) (mk_extra m)) with Some j => Ok j | None => Err end.
Definition sign_delegation (sign : string -> json -> option string) (d : delegation) : res string :=
  match sign typ_delegation (marshal delegation_fields (deleg_values d) (dg_extra d)) with Some j => Ok j | None => Err end.

(** IssueTrustMark: trustmark.go:470-509. time.Time.Add does not overflow for the times
    considered. *)
Definition issue_mark (sign : string -> json -> option string) (entity : string) (specs : smap mark_spec)
           (now : time) (typ sub : string) (lifetime : option Z) : res info :=
  match lookup typ specs with
  | None => Err
  | Some spec =>
      let lf := match lifetime with Some l => l | None => ms_lifetime spec end in
      let tm := Mark entity sub (ms_type spec) now (ms_logo spec)
                     (if Z.eqb lf 0 then None else Some (now + lf)%Z) (ms_ref spec) (ms_deleg spec) (ms_extra spec) None in
      jwt <- sign_mark sign tm ;;
      Ok (Info (ms_type spec) jwt (if ms_include spec then ms_extra spec else []) (Some tm))
  end.

(** TrustMarkOwner.DelegationJWT: trustmark.go:548-570 *)
Definition delegate (sign : string -> json -> option string) (entity : string) (specs : smap owned)
           (now : time) (typ sub : string) (lifetime : option Z) : res string :=
  match lookup typ specs with
  | None => Err
  | Some spec =>
      let lf := match lifetime with Some l => l | None => ow_lifetime spec end in
      sign_delegation sign
        (Deleg entity sub (ow_id spec) now (if Z.eqb (ow_lifetime spec) 0 then None else Some (now + lf)%Z)
               (ow_ref spec) (ow_extra spec) None)
  end.
