(** Concrete cases for the theorems on remote resolution. *)
From Coq Require Import QArith Lia.
From Verif Require Import Base BaseFacts GoVal Policy Schema Metadata SpecMetadata Chain SpecChain Resolver SpecResolver WitnessResolver FloatTime SpecTime Json SpecJson JsonFacts TrustMark
  Refresher Leaf Config SpecConfig Jwt SpecJwt SpecDecode Statement SpecStatement WitnessStatement Encode SpecEncode EncodeLaws WitnessEncode Respond SpecRespond SpecRemote WitnessRespond.
From Verif Require Import GoVal.
Local Open Scope nat_scope.
Local Open Scope string_scope.

(** A resolver for the documents [docs] of the leaf, about the leaf, and of the anchor. *)
Definition parse_docs (leaf sub : json) (jwt : string) : option (string * json) :=
  option_map (fun j => ("entity-statement+jwt", j)) (lookup jwt [("kl:leaf", leaf); ("kt:ta", ta_doc); ("kt:sub", sub)]).
Definition get0 (p : list nat) (id : string) : option string := lookup id [(LEAF, "kl:leaf"); (TA, "kt:ta")].
Definition fetch0 (p : list nat) (ep sub iss : string) : option string := lookup (fetch_key ep sub) [(fetch_key "https://ta.example/fetch" LEAF, "kt:sub")].
Definition clock0 (p : list nat) (b : bool) : time := (500 * 1000000000)%Z.
Definition verify0 (jwt : string) (keys : list string) : bool := existsb (fun k => has_prefix k jwt) keys.
Definition net_docs (leaf sub : json) : world := world_of (parse_docs leaf sub) kc_texts get0 fetch0 clock0 verify0 host_of.
Definition resolver_env (leaf sub : json) : env :=
  Env LocalR (fun _ _ => net_docs leaf sub) (fun _ a => w_config (net_docs leaf sub) [] a) (fun _ _ _ => ATransport) clock0
      (parse_docs leaf sub) (fun t => ok_or_none (parse_statement (parse_docs leaf sub) kc_texts t)) (fun _ => None) verify0 (fun _ => []).
Definition rq0 : request := Req LEAF [TA] [].
Definition resolved (leaf sub : json) : payload :=
  match local_payload (issuer_keys 5 (resolver_env leaf sub)) 5 (resolver_env leaf sub) [] rq0 with Done (Ok pl) => pl | _ => no_payload end.
Definition answer_to (leaf sub : json) : response := Response TA LEAF (at_second 400) (at_second 900) "" (resolved leaf sub) [].
Definition jws3 (t : string) : bool := mem t ["kl:leaf"; "kt:sub"; "kt:ta"].
Definition client_env (r : response) : env :=
  Env (SimpleR "https://ta.example/resolve") (fun _ _ => net0) (fun _ a => w_config net0 [] a) (fun _ _ _ => ABody "a.b.c") clock0
      (read_jwt (cx_answer r)) (fun _ => None) (fun j => ok_or_none (dec_response jws3 j)) (fun _ _ => false) (fun _ => []).

(** The leaf spells an attribute in another case. *)
Definition loud_doc : json := document LEAF LEAF "kl"
  [("authority_hints", JArr [JStr TA]);
   ("metadata", JObj [("openid_relying_party", JObj [("client_name", JStr "App"); ("Grant_Types", JArr [JStr "password"])])])].
Definition strict_doc : json := document TA LEAF "kl"
  [("metadata_policy", JObj [("openid_relying_party", JObj [("grant_types", JObj [("subset_of", JArr [JStr "authorization_code"])])])])].
Lemma loud_plain : plain loud_doc. Proof. plain_doc. Qed.
Lemma strict_plain : plain strict_doc. Proof. plain_doc. Qed.

Definition grants (pl : payload) : option gval :=
  match pl_metadata pl with Some m => match md_rp m with Some x => em_tag "grant_types" x | None => None end | None => None end.
Lemma c129_refuted : exists parse kc get fetch now verify host keys fuel e0 pl cx jws s r m jwt e pl',
  (forall p rq, te_world e0 p rq = world_of parse kc get fetch now verify host) /\
  (forall t typ j, parse t = Some (typ, j) -> plain j) /\ (forall t, In t (pl_chain pl) -> jws t = true) /\
  local_payload keys fuel e0 [] rq0 = Done (Ok pl) /\ rp_payload r = pl /\ rp_extra r = [] /\
  sign_response cx s r = Ok m /\ cx_parse cx jwt = Some m /\ reads_with cx jws e /\
  (forall p ep rq, te_remote e p ep rq = ABody jwt) /\
  remote_payload e [] "https://ta.example/resolve" rq0 = Ok pl' /\
  (exists j, parse "kt:sub" = Some ("entity-statement+jwt", j) /\
     claim "metadata_policy" j = Some (JObj [("openid_relying_party", JObj [("grant_types", JObj [("subset_of", JArr [JStr "authorization_code"])])])])) /\
  In "kt:sub" (pl_chain pl) /\
  grants pl = Some (VSlice TStr true []) /\ grants pl' = Some (VSlice TStr false [VStr "password"]).
Proof.
  exists (parse_docs loud_doc strict_doc), kc_texts, get0, fetch0, clock0, verify0, host_of, (issuer_keys 5 (resolver_env loud_doc strict_doc)), 5, (resolver_env loud_doc strict_doc),
    (resolved loud_doc strict_doc), (cx_answer (answer_to loud_doc strict_doc)), jws3, ta_signer, (answer_to loud_doc strict_doc).
  eexists _, "a.b.c", (client_env (answer_to loud_doc strict_doc)), _.
  split; [reflexivity|]. split.
  { intros t typ j H. unfold parse_docs, lookup in H. destruct (String.eqb t "kl:leaf"); [injection H as <- <-; exact loud_plain|].
    destruct (String.eqb t "kt:ta"); [injection H as <- <-; exact ta_plain|]. destruct (String.eqb t "kt:sub"); [injection H as <- <-; exact strict_plain|discriminate H]. }
  split. { intros t Ht. vm_compute in Ht. each Ht; reflexivity. }
  split; [vm_compute; reflexivity|]. split; [reflexivity|]. split; [reflexivity|]. split; [vm_compute; reflexivity|]. split; [vm_compute; reflexivity|].
  split; [split; reflexivity|]. split; [reflexivity|]. split; [vm_compute; reflexivity|]. split; [eexists; split; vm_compute; reflexivity|].
  split; [vm_compute; tauto|]. split; vm_compute; reflexivity.
Qed.

(** Tidy documents *)
Definition clearb (names : list string) (x : json) : bool :=
  match x with JObj o => forallb (fun k => mem k names || negb (mem (fold_name k) (map fold_name names)))%bool (keys o) | _ => true end.
Definition nob (k : string) (x : json) : bool := match claim k x with None => true | Some _ => false end.
Definition tidyb (j : json) : bool :=
  (clearb type_names (stated "metadata" j) &&
   forallb (fun ts => clearb (map fr_tag (snd ts)) (stated (fst ts) (stated "metadata" j)) && nob "-" (stated (fst ts) (stated "metadata" j))) schema_of_type &&
   forallb (fun t => nob "-" (stated t (stated "metadata_policy" j))) type_names)%bool.
Lemma clearb_ok names x : clearb names x = true -> clear names x.
Proof.
  intros B k H. destruct x as [| | | | |o]; try (now elim H). cbn [claim] in H. destruct (lookup k (rev o)) as [y|] eqn:L; [|contradiction]. apply lookup_In, in_rev in L.
  cbn [clearb] in B. rewrite forallb_forall in B.
  assert (I : In k (keys o)) by (unfold keys; apply in_map_iff; exists (k, y); auto). apply B in I. apply Bool.orb_true_iff in I as [I|I]; [left; now apply mem_In|right].
  apply Bool.negb_true_iff in I. now apply mem_nIn.
Qed.
Lemma nob_ok k x : nob k x = true -> claim k x = None.
Proof. unfold nob. destruct (claim k x); [discriminate|reflexivity]. Qed.
Lemma tidyb_ok j : plain j -> tidyb j = true -> tidy j.
Proof.
  intros P B. unfold tidyb in B. apply Bool.andb_true_iff in B as [B B3]. apply Bool.andb_true_iff in B as [B1 B2]. rewrite forallb_forall in B2, B3.
  split; [exact P|]. split; [split|].
  - now apply clearb_ok.
  - intros t sch I. apply B2 in I. cbn [fst snd] in I. apply Bool.andb_true_iff in I as [I J]. split; [now apply clearb_ok|now apply nob_ok].
  - intros t I. apply nob_ok. now apply B3.
Qed.
Lemma leaf_tidy : tidy leaf_doc. Proof. apply tidyb_ok; [exact leaf_plain|vm_compute; reflexivity]. Qed.
Lemma sub_tidy : tidy sub_doc. Proof. apply tidyb_ok; [exact sub_plain|vm_compute; reflexivity]. Qed.
Lemma ta_tidy : tidy ta_doc. Proof. apply tidyb_ok; [exact ta_plain|vm_compute; reflexivity]. Qed.

Lemma c129_case : let e0 := resolver_env leaf_doc sub_doc in let r := answer_to leaf_doc sub_doc in
  (forall p rq, te_world e0 p rq = world_of (parse_docs leaf_doc sub_doc) kc_texts get0 fetch0 clock0 verify0 host_of) /\
  local_payload (issuer_keys 5 e0) 5 e0 [] rq0 = Done (Ok (rp_payload r)) /\ pl_chain (rp_payload r) = ["kl:leaf"; "kt:sub"; "kt:ta"] /\
  (forall t, In t (pl_chain (rp_payload r)) -> jws3 t = true /\ forall typ j, parse_docs leaf_doc sub_doc t = Some (typ, j) -> tidy j) /\
  apart response_claims (rp_extra r) /\ reads_with (cx_answer r) jws3 (client_env r) /\
  exists m pl' md x, sign_response (cx_answer r) ta_signer r = Ok m /\ cx_parse (cx_answer r) "a.b.c" = Some m /\
    remote_payload (client_env r) [] "https://ta.example/resolve" rq0 = Ok pl' /\
    pl_metadata pl' = Some md /\ md_rp md = Some x /\ em_tag "client_name" x = Some (VStr "App") /\ em_tag "contacts" x = Some (VSlice TStr false [VStr "ops@ta.example"]) /\
    lookup "tier" (extra_value x) = Some (VFloat 3).
Proof.
  split; [reflexivity|]. split; [vm_compute; reflexivity|]. split; [vm_compute; reflexivity|]. split.
  { intros t Ht. vm_compute in Ht. split; [each Ht; reflexivity|]. intros typ j H. each Ht; injection H as <- <-; [exact leaf_tidy|exact sub_tidy|exact ta_tidy]. }
  split; [split; [constructor|intros k []]|]. split; [split; reflexivity|].
  eexists _, _, _, _. split; [vm_compute; reflexivity|]. split; [vm_compute; reflexivity|]. split; [vm_compute; reflexivity|]. split; [reflexivity|]. split; [reflexivity|].
  split; [vm_compute; reflexivity|]. split; vm_compute; reflexivity.
Qed.
Lemma c129_types_case : returned (net_docs leaf_doc sub_doc) (map (fun id => Anchor id None) [TA]) [] LEAF chain1 /\
  (forall s typ j, In s chain1 -> parse_docs leaf_doc sub_doc (st_jwt s) = Some (typ, j) -> tidy j) /\ exists m, chain_metadata chain1 = Ok (Some m).
Proof.
  split. { exists 5; eexists; split; [right; vm_compute; reflexivity|vm_compute; auto]. }
  split. { intros s typ j I H. unfold chain1 in I. each I; vm_compute in H; injection H as <- <-; [exact leaf_tidy|exact sub_tidy|exact ta_tidy]. }
  eexists. vm_compute. reflexivity.
Qed.
