(** Concrete cases for the theorems on decoded statements. *)
From Coq Require Import QArith Qround.
From Verif Require Import Base BaseFacts GoVal Policy Schema Metadata SpecPolicy SpecMetadata Chain Resolver SpecResolver SpecChain SpecAuth WitnessResolver WitnessAuth
  FloatTime SpecTime Json SpecJson JsonFacts TrustMark Leaf Config SpecDecode Statement SpecStatement StatementLaws StatementChains.
From Verif Require Import GoVal.
Local Open Scope nat_scope.
Local Open Scope string_scope.

(** A key set lists its keys as texts. *)
Definition texts_of (l : list json) : option (list string) :=
  fold_right (fun x r => match x, r with JStr s, Some t => Some (s :: t) | _, _ => None end) (Some []) l.
Definition kc_texts : keycodec (list string) :=
  KeyCodec _ (fun ks => JObj [("keys", JArr (map JStr ks))])
    (fun j => match j with JObj [("keys", JArr l)] => texts_of l | _ => None end) (@List.length string).
Definition seconds (n : Z) : json := JNum (inject_Z n).
Definition document (iss sub key : string) (more : list (string * json)) : json :=
  JObj ([("iss", JStr iss); ("sub", JStr sub); ("iat", seconds 100); ("exp", seconds 1000); ("jwks", kc_enc kc_texts [key])] ++ more)%list.

Definition leaf_doc : json := document LEAF LEAF "kl"
  [("authority_hints", JArr [JStr TA]);
   ("metadata", JObj [("openid_relying_party", JObj [("client_name", JStr "App"); ("redirect_uris", JArr [JStr "https://leaf.example/cb"]); ("tier", seconds 3)]);
                      ("shop", JObj [("open", JBool true)])]);
   ("trust_marks", JArr [JObj [("trust_mark_type", JStr "tm1"); ("trust_mark", JStr "eyJ")]])].
Definition ta_doc : json := document TA TA "kt"
  [("metadata", JObj [("federation_entity", JObj [("federation_fetch_endpoint", JStr "https://ta.example/fetch")])]);
   ("trust_mark_issuers", JObj [("tm1", JArr [JStr IM])]);
   ("trust_mark_owners", JObj [("tm1", JObj [("sub", JStr IM); ("jwks", kc_enc kc_texts ["ko"])])])].
Definition sub_doc : json := document TA LEAF "kl"
  [("metadata_policy", JObj [("openid_relying_party", JObj [("client_name", JObj [("default", JStr "Fallback")]);
                                                           ("contacts", JObj [("add", JArr [JStr "ops@ta.example"])])])]);
   ("metadata_policy_crit", JArr [JStr "add"]);
   ("constraints", JObj [("max_path_length", seconds 1); ("naming_constraints", JObj [("permitted", JArr [JStr ".example"])]);
                         ("allowed_entity_types", JArr [JStr "openid_relying_party"])])].
Definition parse1 (jwt : string) : option (string * json) :=
  option_map (fun j => ("entity-statement+jwt", j)) (lookup jwt [("kl:leaf", leaf_doc); ("kt:ta", ta_doc); ("kt:sub", sub_doc)]).
Definition net1 : world :=
  world_of parse1 kc_texts (fun _ id => lookup id [(LEAF, "kl:leaf"); (TA, "kt:ta")])
    (fun _ ep sub _ => lookup (fetch_key ep sub) [(fetch_key "https://ta.example/fetch" LEAF, "kt:sub")])
    (fun _ _ => (500 * 1000000000)%Z) (fun jwt keys => existsb (fun k => has_prefix k jwt) keys) host_of.
Definition stmt_of (jwt : string) : stmt :=
  match parse_statement parse1 kc_texts jwt with Ok s => s | _ => orphan end.
Definition leaf1 : stmt := Eval vm_compute in stmt_of "kl:leaf".
Definition sub1 : stmt := Eval vm_compute in stmt_of "kt:sub".
Definition ta1 : stmt := Eval vm_compute in stmt_of "kt:ta".
Definition chain1 : chain := [leaf1; sub1; ta1].

Ltac plain_doc := vm_compute; repeat first
  [ progress cbn [snd] | apply plain_null | apply plain_bool | apply plain_text
  | match goal with |- plain (JNum ?q) => apply (plain_number q (Qfloor q)); reflexivity end
  | match goal with |- plain (JArr _) => apply plain_array end
  | match goal with |- plain (JObj _) => apply plain_object; [apply nodupb_ok; vm_compute; reflexivity|] end
  | apply Forall_cons | apply Forall_nil ].
Lemma leaf_plain : plain leaf_doc. Proof. plain_doc. Qed.
Lemma ta_plain : plain ta_doc. Proof. plain_doc. Qed.
Lemma sub_plain : plain sub_doc. Proof. plain_doc. Qed.

(** *** C121 *)
Lemma c121_case :
  plain leaf_doc /\ plain ta_doc /\ plain sub_doc /\
  parse_statement parse1 kc_texts "kl:leaf" = Ok leaf1 /\ parse_statement parse1 kc_texts "kt:sub" = Ok sub1 /\ parse_statement parse1 kc_texts "kt:ta" = Ok ta1 /\
  st_exp leaf1 = (1000 * 1000000000)%Z /\ st_hints leaf1 = [TA] /\ st_marks leaf1 = [("tm1", "eyJ")] /\ st_mark_owners ta1 = [("tm1", (IM, Some ["ko"]))] /\
  option_map co_max_path (st_constraints sub1) = Some (Some 1%Z) /\
  dec_statement kc_texts "x" (document TA TA "kt" [("metadata_policy", JObj [("shop", JObj [])])]) = Err /\
  dec_statement kc_texts "x" (document TA TA "kt" [("authority_hints", JStr TA)]) = Err /\
  (exists p, dec_response (fun _ => true) (JObj [("trust_chain", JArr [JStr "a.b.c"]); ("metadata", JObj [])]) = Ok p /\ pl_chain p = ["a.b.c"]).
Proof.
  split; [exact leaf_plain|]. split; [exact ta_plain|]. split; [exact sub_plain|].
  split; [vm_compute; reflexivity|]. split; [vm_compute; reflexivity|]. split; [vm_compute; reflexivity|].
  split; [vm_compute; reflexivity|]. split; [vm_compute; reflexivity|]. split; [vm_compute; reflexivity|]. split; [vm_compute; reflexivity|].
  split; [vm_compute; reflexivity|]. split; [vm_compute; reflexivity|]. split; [vm_compute; reflexivity|].
  eexists. split; vm_compute; reflexivity.
Qed.

(** *** C122 *)
Definition dec1 (jwt : string) : option stmt := ok_or_none (parse_statement parse1 kc_texts jwt).
Lemma careful1 id : careful dec1 owns0 signed0 id.
Proof.
  intros jwt s l k _ D _ K Hk. unfold dec1, parse_statement, parse1, lookup in D.
  destruct (String.eqb jwt "kl:leaf"); [vm_compute in D; injection D as <-; injection K as <-; destruct Hk as [<-|[]]; reflexivity|].
  destruct (String.eqb jwt "kt:ta"); [vm_compute in D; injection D as <-; injection K as <-; destruct Hk as [<-|[]]; reflexivity|].
  destruct (String.eqb jwt "kt:sub"); [vm_compute in D; injection D as <-; injection K as <-; destruct Hk as [<-|[]]; reflexivity|]. discriminate.
Qed.
Lemma c122_case :
  (forall id jwt ks, (forall k, In k ks -> owns0 id k) -> w_verify net1 jwt ks = true -> signed0 id jwt) /\
  (forall ta, In ta tas0 -> anchor_known net1 owns0 ta) /\
  returned net1 tas0 [] LEAF chain1 /\ List.length chain1 = 3 /\ (forall id, careful dec1 owns0 signed0 id) /\
  exists m rp, chain_metadata chain1 = Ok (Some m) /\ md_rp m = Some rp /\ em_tag "client_name" rp = Some (VStr "App") /\
    em_tag "contacts" rp = Some (VSlice TStr false [VStr "ops@ta.example"]).
Proof.
  split. { intros id jwt ks O V. cbn [net1 world_of w_verify] in V. apply existsb_exists in V. destruct V as (k & Hk & V). exists k. auto. }
  split. { intros ta [<-|[]] k [<-|[]]. reflexivity. }
  split. { exists 5; eexists; split; [right; vm_compute; reflexivity|vm_compute; auto]. }
  split; [reflexivity|]. split; [apply careful1|].
  eexists _, _. split; [vm_compute; reflexivity|]. split; [reflexivity|]. split; vm_compute; reflexivity.
Qed.

(** A document nobody has signed. *)
Definition parse_forged (jwt : string) : option (string * json) :=
  option_map (fun j => ("entity-statement+jwt", j))
    (lookup jwt [("nobody:leaf", document LEAF LEAF "kx" [("metadata", JObj [("openid_relying_party", JObj [("client_name", JStr "Forged")])])])]).
Definition verify_prefix (jwt : string) (keys : list string) : bool := existsb (fun k => has_prefix k jwt) keys.
Definition net_forged : world :=
  world_of parse_forged kc_texts (fun _ id => lookup id [(LEAF, "nobody:leaf")]) (fun _ _ _ _ => None) (fun _ _ => (500 * 1000000000)%Z) verify_prefix host_of.
Lemma c122_witness : exists parse kc get fetch now verify host (owns signed : string -> string -> Prop) tas types start e m x,
  let w := world_of parse kc get fetch now verify host in
  (forall id jwt ks, (forall k, In k ks -> owns id k) -> verify jwt ks = true -> signed id jwt) /\
  (forall ta, In ta tas -> anchor_known w owns ta) /\ returned w tas types start [e] /\
  (forall id, careful (fun jwt => ok_or_none (parse_statement parse kc jwt)) owns signed id) /\
  chain_metadata [e] = Ok (Some m) /\ md_rp m = Some x /\ em_tag "client_name" x = Some (VStr "Forged") /\
  forall id pub, ~ signed_statement parse kc signed id pub.
Proof.
  exists parse_forged, kc_texts, (fun _ id => lookup id [(LEAF, "nobody:leaf")]), (fun _ _ _ _ => None), (fun _ _ => (500 * 1000000000)%Z), verify_prefix, host_of,
    owns0, signed0, tas0, [], LEAF. eexists _, _, _. cbv zeta. fold net_forged.
  split. { intros id jwt ks O V. apply existsb_exists in V. destruct V as (k & Hk & V). exists k. auto. }
  split. { intros ta [<-|[]] k [<-|[]]. reflexivity. }
  split. { exists 5; eexists; split; [right; vm_compute; reflexivity|vm_compute; auto]. }
  assert (S : forall id jwt, parse_forged jwt <> None -> ~ signed0 id jwt).
  { intros id jwt P (k & O & B). assert (E : jwt = "nobody:leaf").
    { unfold parse_forged in P. cbn [lookup] in P. destruct (String.eqb jwt "nobody:leaf") eqn:E; [now apply String.eqb_eq|now contradiction P]. }
    subst jwt. clear P. unfold owns0, key_of in O. revert O B. cbn [lookup].
    repeat (destruct (String.eqb id _); [intros [= <-]; discriminate|]). discriminate. }
  split. { intros id jwt s l k SG D. exfalso. apply (S id jwt); [|exact SG]. intros N. unfold parse_statement in D. rewrite N in D. discriminate. }
  split; [vm_compute; reflexivity|]. split; [vm_compute; reflexivity|]. split; [vm_compute; reflexivity|].
  intros id pub (j & P & SG & _). apply (S id (st_jwt pub)); [congruence|exact SG].
Qed.

(** *** C123 *)
Definition named : json := JObj [("ClientName", JStr "x")].
Definition fallback : policy := [("client_name", [("default", VStr "Fallback")])].
Lemma c123_witness : exists sch x m r, In sch entity_schemas /\ plain x /\ dec_entity sch x = Ok m /\ In r sch /\ fr_tag r <> "-" /\
  stated (fr_tag r) x = JNull /\ attr_set (fr_tag r) m = true.
Proof.
  eexists rp_schema, named, _, (FRow "ClientName" "client_name" true TStr). split; [cbn; tauto|]. split; [unfold named; plain_doc|].
  split; [vm_compute; reflexivity|]. split; [cbn; tauto|]. split; [discriminate|]. split; vm_compute; reflexivity.
Qed.
Lemma c123_default : exists x m m', plain x /\ stated "client_name" x = JNull /\ dec_entity rp_schema x = Ok m /\
  apply_policy m [("client_name", [("default", VStr "Fallback")])] = Ok m' /\ em_tag "client_name" m' = Some (VStr "").
Proof.
  exists named. eexists _, _. split; [unfold named; plain_doc|]. split; [reflexivity|]. split; [vm_compute; reflexivity|].
  split; vm_compute; reflexivity.
Qed.
Lemma c123_case : exists m m', dec_entity rp_schema (JObj [("client_uri", JStr "https://leaf.example")]) = Ok m /\
  attr_set "client_name" m = false /\ attr_set "client_uri" m = true /\
  apply_policy m fallback = Ok m' /\ em_tag "client_name" m' = Some (VStr "Fallback").
Proof. eexists _, _. repeat split; vm_compute; reflexivity. Qed.
