(** Attributes with a single value. *)
From Verif Require Import Base GoVal Policy Schema Metadata Chain SpecChain SpecSingle SingleFacts SingleLaws WitnessPolicy WitnessSingle.
Local Open Scope string_scope.

(** ** C137 A single-valued attribute resolves to what the operator table makes of it *)

(** In the metadata of every chain. *)
Theorem C137_chain : forall c md t k ss em r cur,
  2 <= List.length c -> chain_metadata c = Ok (Some md) -> In t entity_types ->
  Forall2 (says k) (policies_of (snd t) c) ss ->
  fst t (leaf_metadata c) = Some em -> stated em k r cur -> fr_ty r = TStr \/ fr_ty r = TBool ->
  exists out em', fst t md = Some em' /\ em_tag k em' = Some (field_value (fr_ty r) out) /\ outcome ss cur out.
Proof. exact chain_single. Qed.
Print Assumptions C137_chain.

Example C137_chain_case : exists md em', chain_metadata (chain_of rp_method e_low e_top) = Ok (Some md) /\
  Forall2 (says AM) (policies_of mp_rp (chain_of rp_method e_low e_top)) [Some s_low; Some s_top] /\
  md_rp (leaf_metadata (chain_of rp_method e_low e_top)) = Some rp_method /\
  stated rp_method AM r_method (Some (Text "private_key_jwt")) /\
  md_rp md = Some em' /\ em_tag AM em' = Some (VStr "private_key_jwt").
Proof. exact single_case. Qed.

Example C137_default_case : exists md em', chain_metadata (chain_of rp_silent e_low e_top) = Ok (Some md) /\
  Forall2 (says AM) (policies_of mp_rp (chain_of rp_silent e_low e_top)) [Some s_low; Some s_top] /\
  stated rp_silent AM r_method None /\
  md_rp md = Some em' /\ em_tag AM em' = Some (VStr "private_key_jwt").
Proof. exact single_default_case. Qed.

(** Policies on the attribute succeed exactly if they do not contradict each other and the
    table gives a value, and this value is then the only change.
    Missing: empty texts and false, see [C137_refuted]. *)
Theorem C137_exact_partial : forall k ps ss em r cur m',
  Forall2 (says k) ps ss -> only k ps -> Forall coherent ss -> no_blanks ss cur ->
  NoDup (map (fun fv : frow * gval => fr_tag (fst fv)) (em_fields em)) ->
  stated em k r cur -> fr_ty r = TStr \/ fr_ty r = TBool -> (forall x, cur = Some x -> has_type (fr_ty r) x) ->
  ((exists q, combine_policies ps = Ok q /\ apply_one (Some em) q = Ok (Some m')) <->
   agreed ss /\ exists out, outcome ss cur out /\ (forall x, out = Some x -> has_type (fr_ty r) x) /\
                            m' = with_value k (field_value (fr_ty r) out) em).
Proof. exact single_exact. Qed.
Print Assumptions C137_exact_partial.

Example C137_exact_case :
  Forall2 (says AM) ps0 ss0 /\ only AM ps0 /\ Forall coherent ss0 /\ no_blanks ss0 (Some (Text "private_key_jwt")) /\
  NoDup (map (fun fv : frow * gval => fr_tag (fst fv)) (em_fields rp_method)) /\
  stated rp_method AM r_method (Some (Text "private_key_jwt")) /\
  agreed ss0 /\ outcome ss0 (Some (Text "private_key_jwt")) (Some (Text "private_key_jwt")).
Proof. exact single_exact_case. Qed.

(** Operands of the attribute's type never crash the caller. *)
Theorem C137_no_panic : forall k ps ss em r cur,
  Forall2 (says k) ps ss -> only k ps ->
  NoDup (map (fun fv : frow * gval => fr_tag (fst fv)) (em_fields em)) ->
  stated em k r cur -> fr_ty r = TStr \/ fr_ty r = TBool ->
  (forall x, cur = Some x \/ fixes ss (Some x) \/ offers ss x -> has_type (fr_ty r) x) ->
  combine_policies ps <> Panic /\ forall q, combine_policies ps = Ok q -> apply_one (Some em) q <> Panic.
Proof. exact single_safe. Qed.
Print Assumptions C137_no_panic.

(** An essential attribute that is stated as false (or as the empty text) counts as missing. *)
Theorem C137_refuted : exists k ps ss em r cur, Forall2 (says k) ps ss /\ only k ps /\ Forall coherent ss /\
  NoDup (map (fun fv : frow * gval => fr_tag (fst fv)) (em_fields em)) /\ stated em k r cur /\ fr_ty r = TBool /\
  agreed ss /\ outcome ss cur cur /\ exists q, combine_policies ps = Ok q /\ apply_one (Some em) q = Err.
Proof. exact blank_refuted. Qed.
Print Assumptions C137_refuted.
