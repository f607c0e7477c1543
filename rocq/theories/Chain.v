(** Entity statements and trust chains: entitystatement.go, trustanchor.go,
    trustchain.go, trustchainfilter.go. *)
From Verif Require Import Base GoVal Policy Schema Metadata.
Local Open Scope string_scope.

(** A point in time: nanoseconds since the Unix epoch. The zero time.Time of Go
    (1 January of year 1) is what an absent JSON timestamp decodes to. Location and
    monotonic clock readings are not modelled. Used at unixtime/unixtime.go:13-35. *)
Definition time := Z.
Definition zero_time : time := (-62135596800 * 1000000000)%Z.
(** Time.IsZero, Before, After. Used at unixtime/unixtime.go:42-51. *)
Definition is_zero_time (t : time) : bool := Z.eqb t zero_time.
Definition before (a b : time) : bool := Z.ltb a b.
Definition after (a b : time) : bool := Z.ltb b a.

(** VerifyTime: unixtime/unixtime.go:41-50, with the clock reading [now]. (Both
    pointers are non-nil at all call sites.) [Ok] is the nil error. *)
Definition verify_time (now iat exp : time) : res unit :=
  if negb (is_zero_time iat) && after iat now then Err
  else if negb (is_zero_time exp) && before exp now then Err
  else Ok tt.

(** jwks.JWKS: jwks/jwks.go:15-17. None: the embedded jwk.Set is nil; otherwise the
    keys of the set (a key is identified by its encoding). *)
Definition jwks := option (list string).

(** ConstraintSpecification, NamingConstraints: entitystatement.go:199-209. nil slices
    are None where the code distinguishes them from empty ones. *)
Record naming := Naming { nc_permitted : option (list string); nc_excluded : list string }.
Record constraints := Constraints {
  co_max_path : option Z; co_naming : option naming; co_types : option (list string) }.

(** EntityStatement with its payload: entitystatement.go:24-27,67-86. [st_jwt] is the
    signed JWT the payload was decoded from. Audience, SourceEndpoint, TrustAnchorID
    and Extra are not used by the modelled code. *)
Record stmt := Stmt {
  st_jwt : string;
  st_iss : string;
  st_sub : string;
  st_iat : time;
  st_exp : time;
  st_jwks : jwks;
  st_hints : list string;
  st_metadata : option metadata;
  st_policy : option policies;
  st_constraints : option constraints;
  st_crit : list string;
  st_policy_crit : list string;
  st_marks : list (string * string);            (* trust_mark_type, JWT *)
  st_mark_issuers : smap (list string);
  st_mark_owners : smap (string * jwks) }.

(** TimeValid: entitystatement.go:89-91 *)
Definition time_valid (now : time) (s : stmt) : bool := is_ok (verify_time now (st_iat s) (st_exp s)).

(** TrustAnchor: trustanchor.go:8-11 *)
Record anchor := Anchor { ta_id : string; ta_jwks : jwks }.
(** EntityIDs: trustanchor.go:17-22 *)
Definition anchor_ids (tas : list anchor) : list string := map ta_id tas.

(** TrustChain: trustchain.go:16 *)
Definition chain := list stmt.

(** PathLen: trustchain.go:29-42 *)
Definition path_len (c : chain) : nat :=
  if Nat.leb (List.length c) 3 then 0 else List.length c - 3.

(** ExpiresAt: trustchain.go:45-56 *)
Definition expires_at (c : chain) : time :=
  match c with
  | [] => zero_time
  | s :: r => fold_left (fun exp st => if before (st_exp st) exp then st_exp st else exp) r (st_exp s)
  end.

(** The crit check of TrustChain.Metadata: trustchain.go:71-83 *)
Definition unsupported_crit (c : chain) : list string :=
  subtract (dedup (flat_map st_policy_crit c)) (map op_name operator_order).

(** TrustChain.Metadata without its cache: trustchain.go:60-104. The result None is
    the nil pointer (a one-element chain whose statement has no metadata). *)
Definition chain_metadata (c : chain) : res (option metadata) :=
  match c with
  | [] => Err
  | [s] => Ok (st_metadata s)
  | s :: _ =>
      match unsupported_crit c with
      | _ :: _ => Err
      | [] =>
          p <- merge_policies (map st_policy c) ;;
          m <- md_apply (match st_metadata s with Some m => m | None => empty_metadata end) (Some p) ;;
          Ok (Some m)
      end
  end.

(** Messages: trustchain.go:107-112 *)
Definition messages (c : chain) : list string := map st_jwt c.

(** ** Filters and sorting: trustchainfilter.go. Used at trustchainfilter.go:8. *)

Definition chains := list chain.

(** TrustChains.Filter: trustchainfilter.go:11-19 *)
Fixpoint run_filters (fs : list (chains -> chains)) (c : chains) : chains :=
  match fs with
  | [] => c
  | f :: fs' => match f c with [] => [] | c' => run_filters fs' c' end
  end.

(** trustChainFilterFromChecker.Filter: trustchainfilter.go:77-87 *)
Fixpoint filter_checker (check : chain -> bool) (cs : chains) : chains :=
  match cs with
  | [] => []
  | c :: cs' => if check c then c :: filter_checker check cs' else filter_checker check cs'
  end.

(** trustChainsCheckerTrustAnchor.Check: trustchainfilter.go:113-118 *)
Definition check_anchor (id : string) (c : chain) : bool :=
  match rev c with
  | [] => false
  | s :: _ => String.eqb (st_iss s) id
  end.

Definition filter_anchor (id : string) : chains -> chains := filter_checker (check_anchor id).

(** TrustChainsFilterValidMetadata: trustchainfilter.go:158-163 *)
Definition filter_valid_metadata : chains -> chains := filter_checker (fun c => is_ok (chain_metadata c)).

(** trustChainsFilterPathLength.Filter: trustchainfilter.go:131-150 *)
Definition filter_path_len (maxlen : Z) (cs : chains) : chains :=
  match cs with
  | [] => []
  | c :: r =>
      let lim := if Z.ltb maxlen 0
                 then fold_left (fun m d => if Z.ltb (Z.of_nat (path_len d)) m then Z.of_nat (path_len d) else m)
                                r (Z.of_nat (path_len c))
                 else maxlen in
      filter_checker (fun d => Z.leb (Z.of_nat (path_len d)) lim) cs
  end.

(** TrustChainsFilterMinPathLength, TrustChainsFilterMaxPathLength: trustchainfilter.go:152-155,167-169 *)
Definition filter_min_path_len : chains -> chains := filter_path_len (-1).
Definition filter_max_path_len (n : Z) : chains -> chains := filter_path_len n.

(** sort.Slice for at most 12 elements is insertion sort (Go's zsortfunc.go,
    insertionSort_func): for i in 1..n-1, for j from i down while less(j, j-1), swap
    positions j and j-1. SortAsc and SortDesc (trustchainfilter.go:22-50) compute
    [scores] once and the comparison reads scores[j], scores[j-1] by position, so the
    scores do not move with the elements. *)
Definition swap_down {A} (j : nat) (l : list A) : list A :=
  (* swap positions j-1 and j, 1 <= j < length l. Used at trustchainfilter.go:22-50. *)
  match skipn (j - 1) l with
  | a :: b :: r => firstn (j - 1) l ++ b :: a :: r
  | _ => l
  end.

Fixpoint sink {A} (less : nat -> nat -> bool) (j : nat) (l : list A) : list A :=
  match j with
  | 0 => l
  | S j' => if less (S j') j' then sink less j' (swap_down (S j') l) else l
  end.

(** The outer loop, [n] iterations starting at index [i]. Used at trustchainfilter.go:22-50. *)
Fixpoint insertion {A} (less : nat -> nat -> bool) (i n : nat) (l : list A) : list A :=
  match n with
  | 0 => l
  | S n' => insertion less (S i) n' (sink less i l)
  end.

Definition sort_slice {A} (less : nat -> nat -> bool) (l : list A) : list A :=
  insertion less 1 (List.length l - 1) l.

(** SortAsc, SortDesc: trustchainfilter.go:22-50, for at most 12 chains. *)
Definition sort_asc (score : chain -> Z) (cs : chains) : chains :=
  let scores := map score cs in
  sort_slice (fun i j => Z.ltb (nth i scores 0%Z) (nth j scores 0%Z)) cs.
Definition sort_desc (score : chain -> Z) (cs : chains) : chains :=
  let scores := map score cs in
  sort_slice (fun i j => Z.ltb (nth j scores 0%Z) (nth i scores 0%Z)) cs.

(** sort.Slice for any number of elements: it changes the slice only by swapping two
    positions i < j (reflect.Swapper); which ones is decided by the algorithm and the
    comparison. Used at trustchainfilter.go:22-50. *)
Definition swap_at {A} (i j : nat) (l : list A) : list A :=
  match skipn i l with
  | a :: r => match skipn (j - i - 1) r with
              | b :: r' => firstn i l ++ b :: firstn (j - i - 1) r ++ a :: r'
              | [] => l
              end
  | [] => l
  end.
Definition sort_swaps {A} (swaps : list (nat * nat)) (l : list A) : list A :=
  fold_left (fun l ij => swap_at (fst ij) (snd ij) l) swaps l.
