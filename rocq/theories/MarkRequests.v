(** The requests made when trust marks are verified and metadata is resolved: trustmark.go,
    metadata_resolver.go. *)
From Verif Require Import Base GoVal Policy Schema Metadata Chain Resolver Requests FloatTime Json TrustMark.
Local Open Scope string_scope.

(** GetEntityConfiguration in call [p] (metadata_resolver.go:219,247, trustmark.go:245), a
    request to a resolve endpoint (metadata_resolver.go:118), and a request of the local
    resolution of [rq] in call [p] (metadata_resolver.go:47-52); calls are named as in
    [TrustMark.env]. Those for entity statements may be answered from the cache. *)
Inductive contact :=
| ToEntity (p : list nat) (id : string)
| ToResolver (p : list nat) (endpoint : string) (rq : request)
| Within (p : list nat) (rq : request) (r : Requests.request).

(** ResolveToValidChains in resolveResponsePayloadWithoutTrustMarks and ResolvePossible:
    metadata_resolver.go:47-52,85-90 *)
Definition plain_contacts (fuel : nat) (e : env) (p : list nat) (rq : request) : list contact :=
  map (Within p rq) (resolve_requests fuel (te_world e p rq) (map (fun id => Anchor id None) (rq_anchors rq)) (rq_types rq) (rq_sub rq)).

(** TrustMark.VerifyFederation: trustmark.go:261-279; [ask] are the requests of
    getTrustMarkIssuerJWKS. *)
Definition mark_contacts (ask : list nat -> string -> stmt -> list contact) (p : list nat) (m : mark) (ta : stmt) : list contact :=
  if match lookup (mk_type m) (st_mark_issuers ta) with Some l => negb (mem (mk_iss m) l) | None => false end
  then [] else ask p (mk_iss m) ta.

(** TrustMarkInfo.VerifyFederation: trustmark.go:122-131 *)
Definition info_contacts (ask : list nat -> string -> stmt -> list contact) (e : env) (p : list nat) (t : info) (ta : stmt) : list contact :=
  match info_mark e t with
  | Ok (m, _) => if negb (String.eqb (mk_type m) (ti_type t)) then [] else mark_contacts ask p m ta
  | _ => []
  end.

(** VerifiedFederation: trustmark.go:22-29, from position [i] on. *)
Fixpoint infos_contacts (keys : list nat -> string -> stmt -> run jwks) (ask : list nat -> string -> stmt -> list contact)
         (e : env) (p : list nat) (i : nat) (ts : list info) (ta : stmt) : list contact :=
  match ts with
  | [] => []
  | t :: ts' =>
      (info_contacts ask e (i :: p) t ta ++
       match fst (info_verify_federation keys e (i :: p) t ta) with
       | Done (Ok _) | Done Err => infos_contacts keys ask e p (S i) ts' ta
       | _ => []
       end)%list
  end.

(** LocalMetadataResolver.ResolveResponsePayload: metadata_resolver.go:71-81 *)
Definition local_contacts (keys : list nat -> string -> stmt -> run jwks) (ask : list nat -> string -> stmt -> list contact)
           (fuel : nat) (e : env) (p : list nat) (rq : request) : list contact :=
  (plain_contacts fuel e p rq ++
   match local_plain fuel e p rq with
   | Done (Ok (_, leaf :: c)) => infos_contacts keys ask e p 0 (infos_of leaf) (last (leaf :: c) leaf)
   | _ => []
   end)%list.

(** The loop over the trust anchors: metadata_resolver.go:218-240. [settled] says whether the
    loop ends with the answer of an endpoint. *)
Fixpoint anchors_contacts (settled : list nat -> string -> bool) (e : env) (p : list nat) (i : nat) (ids : list string) (rq : request) : list contact :=
  match ids with
  | [] => []
  | id :: ids' =>
      ToEntity (i :: p) id ::
      match te_config e (i :: p) id with
      | None => anchors_contacts settled e p (S i) ids' rq
      | Some ec =>
          if String.eqb (resolve_endpoint ec) "" then anchors_contacts settled e p (S i) ids' rq
          else ToResolver (i :: p) (resolve_endpoint ec) rq ::
               (if settled (i :: p) (resolve_endpoint ec) then [] else anchors_contacts settled e p (S i) ids' rq)
      end
  end.
(** metadata_resolver.go:234-239 and 260-267 *)
Definition payload_settled (e : env) (rq : request) (p : list nat) (ep : string) : bool := is_ok (remote_payload e p ep rq).
Definition possible_settled (e : env) (rq : request) (p : list nat) (ep : string) : bool :=
  (fst (remote_possible e p ep rq) || snd (remote_possible e p ep rq))%bool.

(** SmartRemoteMetadataResolver.ResolveResponsePayload: metadata_resolver.go:215-242 *)
Definition smart_contacts (keys : list nat -> string -> stmt -> run jwks) (ask : list nat -> string -> stmt -> list contact)
           (fuel : nat) (e : env) (p : list nat) (rq : request) : list contact :=
  (anchors_contacts (payload_settled e rq) e p 0 (rq_anchors rq) rq ++
   match ask_anchors e p 0 (rq_anchors rq) rq with
   | Some _ => []
   | None => local_contacts keys ask fuel e p rq
   end)%list.

(** getTrustMarkIssuerJWKS: trustmark.go:218-258, with [fuel] as in [issuer_keys]. *)
Fixpoint issuer_contacts (fuel : nat) (e : env) (p : list nat) (iss : string) (ta : stmt) : list contact :=
  match fuel with
  | O => []
  | S f =>
      if String.eqb iss (st_sub ta) then []
      else
        let rq := Req iss [st_sub ta] [] in
        (match te_default e with
         | LocalR => plain_contacts f e p rq
         | SimpleR ep => [ToResolver p ep rq]
         | SmartR => smart_contacts (issuer_keys f e) (issuer_contacts f e) f e p rq
         end ++
         match (match te_default e with
                | LocalR => rbind (local_plain f e p rq) (fun r => Done (Ok (fst r)))
                | SimpleR ep => Done (remote_payload e p ep rq)
                | SmartR => smart_payload (issuer_keys f e) f e p rq
                end) with
         | Done (Ok pl) => match pl_chain pl with [] => [ToEntity p iss] | _ => [] end
         | _ => []
         end)%list
  end.

(** The functions as called by users of the library: trustmark.go:22-29,122-131,
    metadata_resolver.go:34-93,141-181,206-271. *)
Definition verify_contacts (fuel : nat) (e : env) (p : list nat) (t : info) (ta : stmt) : list contact :=
  info_contacts (issuer_contacts fuel e) e p t ta.
Definition verified_contacts (fuel : nat) (e : env) (p : list nat) (ts : list info) (ta : stmt) : list contact :=
  infos_contacts (issuer_keys fuel e) (issuer_contacts fuel e) e p 0 ts ta.
Definition payload_contacts (fuel : nat) (e : env) (r : resolver) (p : list nat) (rq : request) : list contact :=
  match r with
  | LocalR => local_contacts (issuer_keys fuel e) (issuer_contacts fuel e) fuel e p rq
  | SimpleR ep => [ToResolver p ep rq]
  | SmartR => smart_contacts (issuer_keys fuel e) (issuer_contacts fuel e) fuel e p rq
  end.
Definition metadata_contacts (fuel : nat) (e : env) (r : resolver) (p : list nat) (rq : request) : list contact :=
  match r with
  | LocalR => plain_contacts fuel e p rq
  | SimpleR ep => [ToResolver p ep rq]
  | SmartR => smart_contacts (issuer_keys fuel e) (issuer_contacts fuel e) fuel e p rq
  end.
Definition possible_contacts (fuel : nat) (e : env) (r : resolver) (p : list nat) (rq : request) : list contact :=
  match r with
  | LocalR => plain_contacts fuel e p rq
  | SimpleR ep => [ToResolver p ep rq]
  | SmartR =>
      (anchors_contacts (possible_settled e rq) e p 0 (rq_anchors rq) rq ++
       match ask_possible e p 0 (rq_anchors rq) rq with Some _ => [] | None => plain_contacts fuel e p rq end)%list
  end.
