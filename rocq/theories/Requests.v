(** The requests a resolution makes: the calls of GetEntityConfiguration and
    FetchEntityStatement of trustresolver.go, in the order in which they are made. A request
    that is not answered from the statement cache is one HTTP request
    (trustresolver.go:534-593); failures are not cached, so a request that fails is always one. *)
From Verif Require Import Base GoVal Policy Schema Metadata Chain Resolver.
Local Open Scope string_scope.

(** GetEntityConfiguration(id), trustresolver.go:526, or FetchEntityStatement(endpoint, sub,
    iss), trustresolver.go:588; [p] is the node of the trust tree for which it is called. *)
Inductive request :=
| ForConfig (p : list nat) (id : string)
| ForStatement (p : list nat) (endpoint sub iss : string).

(** The requests of one iteration of the loop over the authority hints before the recursive
    call: trustresolver.go:329-344. *)
Definition hint_requests (w : world) (p : list nat) (e : stmt) (ids : list string) (a : string) : list request :=
  if mem a ids then []
  else ForConfig p a ::
    match w_config w p a with
    | None => []
    | Some ec =>
        if negb (String.eqb (st_iss ec) (st_sub ec) && String.eqb (st_iss ec) a) || negb (time_valid (w_now w p false) ec)
        then []
        else if String.eqb (fetch_endpoint ec) "" then []
        else [ForStatement p (fetch_endpoint ec) (st_iss e) a]
    end.

(** The loop over the authority hints, trustresolver.go:328-372: [own] are the requests of an
    iteration itself, [rec] those of its recursive call. *)
Fixpoint hints_requests (own : nat -> string -> list request) (step : nat -> string -> option (stmt * stmt))
         (rec : nat -> string -> stmt -> stmt -> list request) (i : nat) (hs : list string) : list request :=
  match hs with
  | [] => []
  | a :: hs' =>
      (own i a ++ match step i a with Some (ec, s) => rec i a ec s | None => [] end ++
       hints_requests own step rec (S i) hs')%list
  end.

(** trustTree.resolve: trustresolver.go:315-373, with [fuel] as in [Resolver.resolve]. *)
Fixpoint tree_requests (fuel : nat) (w : world) (tas : list anchor) (p : list nat) (depth : nat)
         (types ids : list string) (e : stmt) : list request :=
  match fuel with
  | O => []
  | S f =>
      if mem (st_iss e) (anchor_ids tas) then []
      else hints_requests (fun i a => hint_requests w (i :: p) e ids a)
             (fun i a => hint_step w (i :: p) e depth types ids a)
             (fun i a ec s => tree_requests f w tas (i :: p) (S depth) (types ++ types_of ec)%list (a :: ids) ec)
             0 (st_hints e)
  end.

(** Resolve: trustresolver.go:201-227. Verifying the signatures and the metadata makes no
    requests. *)
Definition resolve_requests (fuel : nat) (w : world) (tas : list anchor) (types : list string)
           (start : string) : list request :=
  if String.eqb start "" then []
  else ForConfig [] start ::
    match w_config w [] start with
    | None => []
    | Some s =>
        match st_metadata s with
        | None => []
        | Some m =>
            let m' := match types with [] => m | _ => nil_all_except m types end in
            let e := with_metadata s (Some m') in
            tree_requests fuel w tas [] 0 (guess_entity_types m') [st_sub e] e
        end
    end.
