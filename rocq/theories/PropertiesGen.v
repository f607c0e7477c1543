(** C163, C164: the generated metadata types. *)
From Coq Require Import Permutation.
From Verif Require Import Base GoVal Schema Gen SpecGen GenFacts WitnessGen.
Local Open Scope nat_scope.
Local Open Scope string_scope.

(** ** C163 Generated metadata types have exactly the declared claims *)

(** A generated struct has the fields declared for it and the common ones, its own in preference, with
    type and tag as declared, if the types are made of names, pointers, slices and maps. *)
Theorem C163_fields_partial : forall name own common n t tag,
  all_common own -> all_common common ->
  In (Row n t tag) (fst (combined name own common)) <->
  exists e, t = go_text e /\ (declares own n (e, tag) \/ ~ declared own n /\ ~ left_out name n /\ declares common n (e, tag)).
Proof. exact gen_fields. Qed.
Print Assumptions C163_fields_partial.

(** So has the struct from which it is filled, with pointers instead of named types. *)
Theorem C163_companion_partial : forall name own common n t tag,
  all_common own -> all_common common ->
  In (Row n t tag) (snd (combined name own common)) <->
  exists e, t = go_text (companion e) /\ (declares own n (e, tag) \/ ~ declared own n /\ ~ left_out name n /\ declares common n (e, tag)).
Proof. exact gen_companion. Qed.
Print Assumptions C163_companion_partial.

(** No field twice, and the two structs have the same fields in the same order. *)
Theorem C163_once : forall name own common,
  NoDup (map rw_name (fst (combined name own common))) /\ same_lines (fst (combined name own common)) (snd (combined name own common)).
Proof. exact gen_once. Qed.
Print Assumptions C163_once.

(** No two fields have the same tag, if different fields are declared with different tags. *)
Theorem C163_tags_partial : forall name own common,
  (forall n n' e e' tag, In (n, (e, Some tag)) (fields_of own ++ fields_of common) -> In (n', (e', Some tag)) (fields_of own ++ fields_of common) -> n = n') ->
  forall r r', In r (fst (combined name own common)) -> In r' (fst (combined name own common)) -> rw_tag r <> None -> rw_tag r = rw_tag r' -> r = r'.
Proof. exact gen_tags. Qed.
Print Assumptions C163_tags_partial.

(** For metadata_input.go the rows are those of metadata_generated.go. *)
Example C163_case : all_common in_fe /\ all_common in_op /\ all_common in_common /\
  fst (combined "FederationEntityMetadata" in_fe in_common) = map schema_row fe_schema /\
  fst (combined "OpenIDRelyingPartyMetadata" in_rp in_common) = map schema_row rp_schema /\
  fst (combined "OpenIDProviderMetadata" in_op in_common) = map schema_row op_schema /\
  fst (combined "OAuthProtectedResourceMetadata" in_pr in_common) = map schema_row pr_schema /\
  In (Row "DisplayName" "*string" (Some (jtag "display_name,omitempty"))) (snd (combined "FederationEntityMetadata" in_fe in_common)).
Proof. exact c163_case. Qed.

(** The tags in metadata_input.go are different. *)
Example C163_tags_case : (forall n n' e e' tag, In (n, (e, Some tag)) (fields_of in_op ++ fields_of in_common) -> In (n', (e', Some tag)) (fields_of in_op ++ fields_of in_common) -> n = n') /\
  (forall n n' e e' tag, In (n, (e, Some tag)) (fields_of in_rp ++ fields_of in_common) -> In (n', (e', Some tag)) (fields_of in_rp ++ fields_of in_common) -> n = n') /\
  (forall n n' e e' tag, In (n, (e, Some tag)) (fields_of in_pr ++ fields_of in_common) -> In (n', (e', Some tag)) (fields_of in_pr ++ fields_of in_common) -> n = n') /\
  (forall n n' e e' tag, In (n, (e, Some tag)) (fields_of in_fe ++ fields_of in_common) -> In (n', (e', Some tag)) (fields_of in_fe ++ fields_of in_common) -> n = n').
Proof. exact c163_tags_case. Qed.

(** An array of fixed size is declared and a slice is generated. *)
Theorem C163_refuted : exists name own common n t tag,
  (exists e, t = go_text e /\ declares own n (e, tag)) /\ ~ In (Row n t tag) (fst (combined name own common)).
Proof. exact c163_witness. Qed.
Print Assumptions C163_refuted.

(** Of other types only the name is left, and embedded fields are dropped. *)
Example C163_vanish_case : combined "X" [fld "Hook" (EOther "interface{ Run() }") "hook"; FDecl [] (EName "embedded") None] [] =
  ([Row "Hook" "" (Some (jtag "hook"))], [Row "Hook" "" (Some (jtag "hook"))]).
Proof. exact c163_vanish. Qed.

(** A claim of a type under another name than in the common part: two fields with one tag,
    which encoding/json ignores both. *)
Theorem C163_tags_refuted : exists name own common,
  NoDup (map (fun x => snd (snd x)) (fields_of own)) /\ NoDup (map (fun x => snd (snd x)) (fields_of common)) /\
  ~ NoDup (map rw_tag (fst (combined name own common))).
Proof. exact c163_tags_witness. Qed.
Print Assumptions C163_tags_refuted.

(** Which fields can be filled from their companions without panic: those whose type is not the
    name of a pointer type, nor a qualified name of a type without nil. *)
Theorem C163_read_partial : forall kinds e,
  common_syntax e ->
  from_pointer kinds (companion e) e <> Panic <->
  (forall n, e = EName n -> kinds n <> KPointer) /\ (forall p n, e = EQual p n -> kinds (p ++ "." ++ n) <> KPlain).
Proof. exact gen_read. Qed.
Print Assumptions C163_read_partial.

(** All fields of metadata_input.go. *)
Example C163_read_case : forall d fs f, In d (gs_types repo_src) -> td_struct d = Some fs -> In f fs ->
  common_syntax (fd_type f) /\ from_pointer go_kinds (companion (fd_type f)) (fd_type f) = Ok tt.
Proof. exact c163_read_case. Qed.

(** A field of a struct type of another package cannot. *)
Theorem C163_read_refuted : exists kinds e, common_syntax e /\ from_pointer kinds (companion e) e = Panic.
Proof. exact c163_read_witness. Qed.
Print Assumptions C163_read_refuted.

(** ** C164 Regenerating the metadata types reproduces them *)

(** Two runs write the same types, in some order. *)
Theorem C164_partial : forall o1 o2 src f1 f2,
  some_order o1 -> some_order o2 -> generate o1 src = Ok f1 -> generate o2 src = Ok f2 ->
  gf_package f1 = gf_package f2 /\ Permutation (gf_types f1) (gf_types f2).
Proof. exact gen_again. Qed.
Print Assumptions C164_partial.

(** They are the declared structs, each once, the last declaration if there are several. *)
Theorem C164_written : forall order src f,
  some_order order -> generate order src = Ok f ->
  exists c, last_struct src "commonMetadata" c /\
  (forall g, In g (gf_types f) <-> exists n fs, n <> "commonMetadata" /\ last_struct src n fs /\
     gt_name g = capital n /\ gt_ptr_name g = n ++ "WithPtrs" /\ (gt_rows g, gt_ptrs g) = combined (capital n) fs c /\
     gt_entity g = match lookup (capital n) entity_types with Some t => t | None => "" end) /\
  NoDup (map gt_ptr_name (gf_types f)).
Proof. exact gen_written. Qed.
Print Assumptions C164_written.

(** Their names are those of the declarations, with a capital. *)
Theorem C164_exported : forall n, n <> "" -> exported_as n (capital n).
Proof. exact gen_exported. Qed.
Print Assumptions C164_exported.

(** The generator refuses exactly the files without a struct commonMetadata. *)
Theorem C164_refuses : forall order src,
  (generate order src = Err <-> forall fs, ~ last_struct src "commonMetadata" fs) /\ generate order src <> Panic.
Proof. exact gen_refuses. Qed.
Print Assumptions C164_refuses.

Example C164_refuses_case : capital "openIDProviderMetadata" = "OpenIDProviderMetadata" /\ capital "zone" = "Zone" /\ capital "_x" = "_x" /\
  (exists fs, last_struct repo_src "commonMetadata" fs) /\
  (forall fs, ~ last_struct (GoSrc "pkg" [TDecl "x" (Some [])]) "commonMetadata" fs).
Proof. exact c164_refuses_case. Qed.

(** metadata_input.go. *)
Example C164_case : exists f, some_order (fun m => m) /\ generate (fun m => m) repo_src = Ok f /\
  map gt_name (gf_types f) = ["OpenIDRelyingPartyMetadata"; "OpenIDProviderMetadata"; "OAuthProtectedResourceMetadata"; "FederationEntityMetadata"] /\
  map gt_entity (gf_types f) = ["openid_relying_party"; "openid_provider"; "oauth_resource"; "federation_entity"] /\
  gs_package repo_src <> "pkg".
Proof. exact c164_case. Qed.

(** The order depends on the run. *)
Theorem C164_refuted : exists src o1 o2 f1 f2, some_order o1 /\ some_order o2 /\ generate o1 src = Ok f1 /\ generate o2 src = Ok f2 /\ f1 <> f2.
Proof. exact c164_witness. Qed.
Print Assumptions C164_refuted.

(** The file belongs to package pkg, whatever the package of the input. *)
Theorem C164_package_refuted : forall order src f,
  generate order src = Ok f -> gs_package src <> "pkg" -> gf_package f <> gs_package src.
Proof. exact gen_package. Qed.
Print Assumptions C164_package_refuted.
