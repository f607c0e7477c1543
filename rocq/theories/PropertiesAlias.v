(** Property theorems about computations that share the backing arrays of slices (C71, C83,
    C84). Each is closed by a lemma proved elsewhere; the Example beside it shows a concrete
    case meeting the hypotheses. [..._refuted] gives a counterexample to the full statement
    of the property, [..._partial] the version that holds. *)
From Verif Require Import Base GoVal Policy Schema Metadata Chain Alias SpecAlias AliasFacts WitnessAlias.
Local Open Scope nat_scope.
Local Open Scope string_scope.

(** ** C71 Results for different chains are independent *)

(** False when a decoded list has spare capacity, which is what encoding/json leaves for
    most lengths: two chains of one leaf with different trust anchors, which add "d" and
    "e" to its contacts. After the second computation the result of the first reads "e". *)
Theorem C71_refuted : exists grow h c1 c2 m,
  decoded_chain h c1 /\ decoded_chain h c2 /\
  fst (hchain_metadata grow c1 h) = Ok (Some m) /\
  let h1 := snd (hchain_metadata grow c1 h) in
  let h2 := snd (hchain_metadata grow c2 h1) in
  contacts_of (read_metadata h1 m) = Some (VSlice TStr false [VStr "a"; VStr "b"; VStr "c"; VStr "d"]) /\
  contacts_of (read_metadata h2 m) = Some (VSlice TStr false [VStr "a"; VStr "b"; VStr "c"; VStr "e"]).
Proof. exact c71_witness. Qed.
Print Assumptions C71_refuted.

(** It holds if no list of a decoded statement has spare capacity. Missing: lists with
    spare capacity (C71_refuted). *)
Theorem C71_no_spare_partial : forall grow c cs h m,
  no_spare h -> decoded_chain h c -> (forall c', In c' cs -> decoded_chain h c') ->
  fst (hchain_metadata grow c h) = Ok (Some m) ->
  read_metadata (run_all grow cs (snd (hchain_metadata grow c h))) m
  = read_metadata (snd (hchain_metadata grow c h)) m.
Proof. exact results_unchanged. Qed.
Print Assumptions C71_no_spare_partial.

Example C71_case : no_spare (heap0 []) /\ decoded_chain (heap0 []) chain_a /\ decoded_chain (heap0 []) chain_b /\
  exists m, fst (hchain_metadata grow0 chain_a (heap0 [])) = Ok (Some m) /\
  contacts_of (read_metadata (run_all grow0 [chain_b] (snd (hchain_metadata grow0 chain_a (heap0 [])))) m)
  = Some (VSlice TStr false (three ++ [VStr "d"])%list).
Proof. exact c71_case. Qed.

(** ** C83 Computing metadata never changes a statement *)

Theorem C83_statements_unchanged : forall grow cs h s,
  (forall c, In c cs -> decoded_chain h c) -> decoded h s ->
  read_stmt (run_all grow cs h) s = read_stmt h s.
Proof. exact statements_unchanged. Qed.
Print Assumptions C83_statements_unchanged.

(** The memory does change in this case, the statement does not. *)
Example C83_case : decoded_chain (heap0 [VStr ""]) chain_a /\ decoded_chain (heap0 [VStr ""]) chain_b /\
  run_all grow0 [chain_a; chain_b] (heap0 [VStr ""]) <> heap0 [VStr ""] /\
  contacts_of (match st_metadata (read_stmt (run_all grow0 [chain_a; chain_b] (heap0 [VStr ""])) hleaf) with Some m => m | None => empty_metadata end)
  = Some (VSlice TStr false three).
Proof. exact c83_case. Qed.

(** ** C84 The metadata computed for a chain does not depend on earlier computations *)

(** What a caller sees directly after the computation is the metadata of the chain as
    Chain.v defines it on values, whatever was computed before with the same statements. *)
Theorem C84_history_independent : forall grow cs c h,
  (forall c', In c' cs -> decoded_chain h c') -> decoded_chain h c ->
  let h' := run_all grow cs h in
  seen (snd (hchain_metadata grow c h')) (fst (hchain_metadata grow c h')) = chain_metadata (map (read_stmt h) c).
Proof. exact history_independent. Qed.
Print Assumptions C84_history_independent.

Example C84_case : decoded_chain (heap0 [VStr ""]) chain_a /\ decoded_chain (heap0 [VStr ""]) chain_b /\
  exists m, chain_metadata (map (read_stmt (heap0 [VStr ""])) chain_b) = Ok (Some m) /\
  contacts_of m = Some (VSlice TStr false (three ++ [VStr "e"])%list).
Proof. exact c84_case. Qed.
