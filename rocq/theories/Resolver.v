(** Trust chain resolution: trustresolver.go. *)
From Verif Require Import Base GoVal Policy Schema Metadata Chain.
Local Open Scope string_scope.

(** What the resolver sees of the outside world. The answers to requests and the clock
    may be different at every node of the trust tree; a node is named by the positions of
    the authority hints that lead to it (last hint first), so the network may change
    arbitrarily while it is being walked. Both request functions stand for the statement
    cache and the HTTP request behind it (trustresolver.go:504-608); None is an error.
    [w_now p b] is the clock when the entity configuration (b = false) or the subordinate
    statement (b = true) obtained at node p is checked. [w_verify jwt keys] is
    jws.Verify with a non-empty key set (internal/jwx/jws.go:51-59). [w_host] is
    url.Parse followed by Hostname (trustresolver.go:424-428); None is a parse error. *)
Record world := World {
  w_config : list nat -> string -> option stmt;
  w_fetch : list nat -> string -> string -> string -> option stmt;
  w_now : list nat -> bool -> time;
  w_verify : string -> list string -> bool;
  w_host : string -> option string }.

(** VerifyWithSet, Verify: internal/jwx (ParsedJWT.VerifyWithSet, lines 51-59),
    entitystatement.go:30-36 *)
Definition verify (w : world) (s : stmt) (ks : jwks) : bool :=
  match ks with
  | None => false
  | Some [] => false
  | Some l => w_verify w (st_jwt s) l
  end.

(** trustTree: trustresolver.go:304-313. Authorities is None when the slice is nil. The
    fields depth, includedEntityTypes and subordinateIDs are only used while the tree is
    built and are arguments of [resolve]; signaturesVerified is the result of
    [verify_sigs] (it is false before VerifySignatures, which is called once). *)
Inductive tree := Tree (t_entity : option stmt) (t_sub : option stmt)
                       (t_auth : option (list tree)) (t_exp : time).
Definition t_entity (t : tree) := let (e, _, _, _) := t in e.
Definition t_sub (t : tree) := let (_, s, _, _) := t in s.
Definition t_auth (t : tree) := let (_, _, a, _) := t in a.
Definition t_exp (t : tree) := let (_, _, _, x) := t in x.

(** The zero trustTree. Used at trustresolver.go:304-313. *)
Definition zero_tree : tree := Tree None None None zero_time.

(** strings.HasPrefix, strings.HasSuffix. Used at trustresolver.go:423-433. *)
Fixpoint has_prefix (p s : string) : bool :=
  match p, s with
  | EmptyString, _ => true
  | String a p', String b s' => Ascii.eqb a b && has_prefix p' s'
  | _, EmptyString => false
  end.
Fixpoint has_suffix (suf s : string) : bool :=
  String.eqb s suf || match s with EmptyString => false | String _ s' => has_suffix suf s' end.

(** matchNamingConstraint: trustresolver.go:423-433 *)
Definition match_naming (w : world) (c id : string) : bool :=
  match w_host w id with
  | None => false
  | Some host => if has_prefix "." c then has_suffix c host else String.eqb c host
  end.

(** The naming constraint loop: trustresolver.go:385-409. The order of
    subordinateIDs.List does not matter. *)
Definition check_naming (w : world) (n : naming) (ids : list string) : bool :=
  forallb (fun id =>
    negb (existsb (fun c => match_naming w c id) (nc_excluded n)) &&
    match nc_permitted n with
    | None => true
    | Some p => existsb (fun c => match_naming w c id) p
    end) ids.

(** checkConstraints: trustresolver.go:375-421 *)
Definition check_constraints (w : world) (depth : nat) (types ids : list string)
           (co : option constraints) : bool :=
  match co with
  | None => true
  | Some c =>
      negb (match co_max_path c with Some m => Z.ltb m (Z.of_nat depth) | None => false end) &&
      (match co_naming c with Some n => check_naming w n ids | None => true end) &&
      (match co_types c with
       | Some allowed => match subtract types (allowed ++ ["federation_entity"])%list with
                         | [] => true | _ => false end
       | None => true
       end)
  end.

(** aStmt.Metadata.FederationEntity.FederationFetchEndpoint; "" if one of the pointers is
    nil (trustresolver.go:340-341 treats all three the same way). *)
Definition fetch_endpoint (s : stmt) : string :=
  match st_metadata s with
  | Some m => match md_fe m with
              | Some fe => match em_get "FederationFetchEndpoint" fe with Some v => str_of v | None => "" end
              | None => ""
              end
  | None => ""
  end.

Definition types_of (s : stmt) : list string :=
  match st_metadata s with Some m => guess_entity_types m | None => [] end.

(** One iteration of the loop over the authority hints up to the construction of the
    child: trustresolver.go:328-355. [p] is the node of the child. None: continue. *)
Definition hint_step (w : world) (p : list nat) (e : stmt) (depth : nat) (types ids : list string)
           (a : string) : option (stmt * stmt) :=
  if mem a ids then None
  else match w_config w p a with
  | None => None
  | Some ec =>
      if negb (String.eqb (st_iss ec) (st_sub ec) && String.eqb (st_iss ec) a) || negb (time_valid (w_now w p false) ec)
      then None
      else if String.eqb (fetch_endpoint ec) "" then None
      else match w_fetch w p (fetch_endpoint ec) (st_iss e) a with
      | None => None
      | Some s =>
          if negb (String.eqb (st_iss s) a) || negb (String.eqb (st_sub s) (st_iss e))
             || negb (time_valid (w_now w p true) s)
          then None
          else if negb (check_constraints w depth types ids (st_constraints s)) then None
          else Some (ec, s)
      end
  end.

(** The loop over the authority hints: trustresolver.go:328-372, from position [i] on,
    with t.expiresAt in [x]. None: out of fuel in the recursive call [rec]. *)
Fixpoint hints_loop (step : nat -> string -> option (stmt * stmt))
         (rec : nat -> string -> stmt -> stmt -> option tree)
         (i : nat) (hs : list string) (x : time) : option (list tree * time) :=
  match hs with
  | [] => Some ([], x)
  | a :: hs' =>
      match step i a with
      | None => match hints_loop step rec (S i) hs' x with
                | None => None
                | Some (ts, x') => Some (zero_tree :: ts, x')
                end
      | Some (ec, s) =>
          match rec i a ec s with
          | None => None
          | Some t => match hints_loop step rec (S i) hs' (if before (st_exp s) x then st_exp s else x) with
                      | None => None
                      | Some (ts, x') => Some (t :: ts, x')
                      end
          end
      end
  end.

(** trustTree.resolve: trustresolver.go:315-373. The recursion of the code is unbounded;
    [fuel] bounds its depth and None is returned when it does not suffice. *)
Fixpoint resolve (fuel : nat) (w : world) (tas : list anchor) (p : list nat) (depth : nat)
         (types ids : list string) (e : stmt) (sub : option stmt) : option tree :=
  match fuel with
  | O => None
  | S f =>
      let x := if before (st_exp e) zero_time then st_exp e else zero_time in
      if mem (st_iss e) (anchor_ids tas) then Some (Tree (Some e) sub None x)
      else match st_hints e with
      | [] => Some (Tree (Some e) sub None x)
      | hs =>
          match hints_loop (fun i a => hint_step w (i :: p) e depth types ids a)
                  (fun i a ec s => resolve f w tas (i :: p) (S depth) (types ++ types_of ec)%list (a :: ids) ec (Some s))
                  0 hs x with
          | None => None
          | Some (ts, x') => Some (Tree (Some e) sub (Some ts) x')
          end
      end
  end.

(** The trust anchor a node is about: trustresolver.go:439-446. The first anchor that
    matches decides; its configured keys are used, or those of the entity itself. *)
Definition anchor_keys (tas : list anchor) (e s : stmt) : option jwks :=
  match find (fun ta => String.eqb (ta_id ta) (st_iss e) && String.eqb (ta_id ta) (st_sub e)
                        && String.eqb (ta_id ta) (st_iss s)) tas with
  | None => None
  | Some ta => Some (match ta_jwks ta with None => st_jwks e | ks => ks end)
  end.

(** One authority [a] that has been verified: trustresolver.go:457-464. Dereferencing nil
    panics. *)
Definition keep_authority (w : world) (e sub : option stmt) (a : tree) : res bool :=
  match t_sub a, e with
  | Some s, Some e => Ok (verify w e (st_jwks s) &&
                          match sub with Some s' => verify w s' (st_jwks s) | None => true end)
  | _, _ => Panic
  end.

(** verifySignatures: trustresolver.go:435-471; returns the result and the tree
    afterwards. nil[:0] is nil. *)
Fixpoint verify_sigs (w : world) (tas : list anchor) (t : tree) : res (bool * tree) :=
  let '(Tree e sub auth x) := t in
  let rest :=
    match auth with
    | None => Ok (false, t)
    | Some l =>
        l' <- (fix go (l : list tree) : res (list tree) :=
                 match l with
                 | [] => Ok []
                 | a :: r =>
                     '(b, a') <- verify_sigs w tas a ;;
                     k <- (if b then keep_authority w e sub a' else Ok false) ;;
                     r' <- go r ;;
                     Ok (if k then a' :: r' else r')
                 end) l ;;
        Ok (match l' with [] => false | _ => true end, Tree e sub (Some l') x)
    end in
  match sub with
  | None => rest
  | Some s =>
      match e with
      | None => match tas with [] => rest | _ => Panic end
      | Some en =>
          match anchor_keys tas en s with
          | Some ks => Ok (verify w en ks && verify w s ks, t)
          | None => rest
          end
      end
  end.

(** trustTree.chains: trustresolver.go:473-502. A nil entry of a chain cannot occur for
    trees built by [resolve]; where the code would append a nil pointer nothing is
    appended here. *)
Fixpoint tree_chains (t : tree) : list chain :=
  let '(Tree e sub auth x) := t in
  let here := match sub with Some s => [s] | None => match e with Some s => [s] | None => [] end end in
  match auth with
  | None => match sub, e with
            | None, None => []
            | None, Some en => [[en]]
            | Some s, Some en => [[s; en]]
            | Some s, None => [[s]]
            end
  | Some l => (fix go (l : list tree) : list chain :=
                 match l with
                 | [] => []
                 | a :: r => (map (fun c => here ++ c) (tree_chains a) ++ go r)%list
                 end) l
  end.

(** The starting entity after the type filter: trustresolver.go:215-217. *)
Definition with_metadata (s : stmt) (m : option metadata) : stmt :=
  Stmt (st_jwt s) (st_iss s) (st_sub s) (st_iat s) (st_exp s) (st_jwks s) (st_hints s) m
       (st_policy s) (st_constraints s) (st_crit s) (st_policy_crit s) (st_marks s) (st_mark_issuers s) (st_mark_owners s).

(** Outcome of a computation that may also run out of fuel. Used at trustresolver.go:315-373. *)
Inductive run (A : Type) := Done (r : res A) | OutOfFuel.
Arguments Done {A} r.
Arguments OutOfFuel {A}.

(** Resolve: trustresolver.go:201-227, with an empty tree cache (for the in-memory cache
    that is always so, see the theorems on C31). NilAllExceptByTag and GuessEntityTypes
    panic on nil metadata. *)
Definition resolve_tree (fuel : nat) (w : world) (tas : list anchor) (types : list string)
           (start : string) : run tree :=
  if String.eqb start "" then Done (Ok zero_tree)
  else match w_config w [] start with
  | None => Done (Ok zero_tree)
  | Some s =>
      match st_metadata s with
      | None => Done Panic
      | Some m =>
          let m' := match types with [] => m | _ => nil_all_except m types end in
          let e := with_metadata s (Some m') in
          match resolve fuel w tas [] 0 (guess_entity_types m') [st_sub e] e None with
          | None => OutOfFuel
          | Some t => Done (Ok t)
          end
      end
  end.

(** ResolveToValidChainsWithoutVerifyingMetadata: trustresolver.go:185-198, with empty
    caches. A nil result is []. *)
Definition resolve_chains (fuel : nat) (w : world) (tas : list anchor) (types : list string)
           (start : string) : run chains :=
  match resolve_tree fuel w tas types start with
  | OutOfFuel => OutOfFuel
  | Done r => Done (t <- r ;; '(_, t') <- verify_sigs w tas t ;; Ok (tree_chains t'))
  end.

(** The filter TrustChainsFilterValidMetadata, with the panics of Metadata:
    trustchainfilter.go:77-87,158-163 *)
Fixpoint valid_metadata_filter (cs : chains) : res chains :=
  match cs with
  | [] => Ok []
  | c :: cs' => match chain_metadata c with
                | Panic => Panic
                | Err => valid_metadata_filter cs'
                | Ok _ => r <- valid_metadata_filter cs' ;; Ok (c :: r)
                end
  end.

(** ResolveToValidChains: trustresolver.go:173-179 *)
Definition resolve_valid (fuel : nat) (w : world) (tas : list anchor) (types : list string)
           (start : string) : run chains :=
  match resolve_chains fuel w tas types start with
  | OutOfFuel => OutOfFuel
  | Done r => Done (cs <- r ;; valid_metadata_filter cs)
  end.
