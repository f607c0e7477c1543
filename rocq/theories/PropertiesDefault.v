(** Property theorems about defaults that the same policy entry forbids (C168). [apply_to e v
    false] is the effect of the entry on an attribute the entity does not state; [v] is the
    zero value of the attribute's type. See SpecPolicy.v and SpecDefault.v for the
    vocabulary. *)
From Verif Require Import Base GoVal Policy SpecPolicy DefaultChecks SpecDefault DefaultFacts WitnessDefault DefaultMore.
Local Open Scope string_scope.
Local Open Scope list_scope.

(** ** C168 An accepted policy gives the default it offers *)

(** List attributes: the default is what the entity gets exactly if it meets the entry's
    other restrictions, and these are exactly the entries that the library's three checks for
    defaults accept, which are not registered. Missing: that verification rejects the others
    (C168_cut_refuted). *)
Theorem C168_list_partial : forall e s d, denotes e s -> list_operands e -> verify_entry e = Ok tt -> offers_default s d ->
  ((exists n, apply_to e (VSlice TStr true []) false = Ok (VSlice TStr n (map VStr d))) <-> fitting_list s d) /\
  (run_verifiers default_checks e = Ok tt <-> fitting_list s d).
Proof. exact list_default. Qed.
Print Assumptions C168_list_partial.

Example C168_list_case :
  denotes (e_scopes ["openid"; "email"] ["email"; "openid"; "profile"]) (s_scopes ["openid"; "email"] ["email"; "openid"; "profile"]) /\
  list_operands (e_scopes ["openid"; "email"] ["email"; "openid"; "profile"]) /\
  verify_entry (e_scopes ["openid"; "email"] ["email"; "openid"; "profile"]) = Ok tt /\
  offers_default (s_scopes ["openid"; "email"] ["email"; "openid"; "profile"]) ["openid"; "email"] /\
  fitting_list (s_scopes ["openid"; "email"] ["email"; "openid"; "profile"]) ["openid"; "email"].
Proof. exact list_default_case. Qed.

(** Text attributes: the same. Missing: also entries with subset_of or superset_of, which are
    for lists. *)
Theorem C168_text_partial : forall e s d, denotes e s -> lookup "default" e = Some (VStr d) -> d <> "" -> offers_default s [d] ->
  se_subset_of s = None -> se_superset_of s = None ->
  (apply_to e (VStr "") false = Ok (VStr d) <-> fitting_text s d) /\ (run_verifiers default_checks e = Ok tt <-> fitting_text s d).
Proof. exact text_default. Qed.
Print Assumptions C168_text_partial.

Example C168_text_case :
  denotes (e_method "private_key_jwt") (s_method "private_key_jwt") /\ lookup "default" (e_method "private_key_jwt") = Some (VStr "private_key_jwt") /\
  offers_default (s_method "private_key_jwt") ["private_key_jwt"] /\ fitting_text (s_method "private_key_jwt") "private_key_jwt".
Proof. exact text_default_case. Qed.

(** In such an entry a default that one_of does not allow is an error. *)
Theorem C168_text_fails : forall e s d, denotes e s -> lookup "default" e = Some (VStr d) -> d <> "" -> offers_default s [d] ->
  se_subset_of s = None -> se_superset_of s = None -> ~ fitting_text s d -> apply_to e (VStr "") false = Err.
Proof. exact text_fails. Qed.
Print Assumptions C168_text_fails.

(** A default that subset_of does not allow is accepted and silently cut. *)
Theorem C168_cut_refuted : exists e s d c, denotes e s /\ list_operands e /\ verify_entry e = Ok tt /\ offers_default s d /\ ~ same_elements c d /\
  exists n, apply_to e (VSlice TStr true []) false = Ok (VSlice TStr n (map VStr c)).
Proof. exact default_cut. Qed.
Print Assumptions C168_cut_refuted.

(** A default that one_of does not allow is accepted and makes every entity fail that does not
    state the attribute, although the attribute is not essential. *)
Theorem C168_fails_refuted : exists e s d, denotes e s /\ verify_entry e = Ok tt /\ lookup "default" e = Some (VStr d) /\ d <> "" /\ offers_default s [d] /\
  se_essential s <> Some true /\ apply_to e (VStr "") false = Err.
Proof. exact default_fails. Qed.
Print Assumptions C168_fails_refuted.

(** Each of two policies may give the default it offers although the two together do not: the
    checks must see the merged entry, which the library verifies without them. *)
Theorem C168_merged_refuted : exists a b m d n, verify_entry a = Ok tt /\ run_verifiers default_checks a = Ok tt /\
  verify_entry b = Ok tt /\ run_verifiers default_checks b = Ok tt /\ merge_entries a b = Ok m /\ verify_entry m = Ok tt /\
  apply_to a (VSlice TStr true []) false = Ok (VSlice TStr n (map VStr d)) /\
  exists n' c, apply_to m (VSlice TStr true []) false = Ok (VSlice TStr n' (map VStr c)) /\ ~ same_elements c d.
Proof. exact default_merged. Qed.
Print Assumptions C168_merged_refuted.
