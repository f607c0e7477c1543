(** Concrete authorization requests: counterexamples and cases for PropertiesLeaf.v. *)
From Coq Require Import QArith Lia.
From Verif Require Import Base BaseFacts GoVal Policy Schema Metadata Chain Resolver SpecResolver FloatTime Json TrustMark
  WitnessResolver WitnessTrustMark Leaf SpecLeaf LeafFacts.
Local Open Scope nat_scope.
Local Open Scope string_scope.

Definition op_of (auth : string) : emeta :=
  match decode_meta op_schema [("issuer", VStr LEAF); ("authorization_endpoint", VStr auth); ("token_endpoint", VStr "https://leaf.example/token")]
  with Ok m => m | _ => zero_meta op_schema end.
Definition op_stmt (auth : string) : stmt :=
  mk "kl" LEAF LEAF ["kl"] [TA] (Some (Metadata (Some (op_of auth)) None None None None None [])) None [] 1000%Z.
Definition env_op (auth : string) : env :=
  env_of LocalR (tables [(LEAF, op_stmt auth); (TA, ta_cfg)] [(fetch_key "https://ta.example/fetch" LEAF, about "kt" TA LEAF "kl")])
    [] [] [] no_remote.
(** The same, but the entity is no OP. *)
Definition env_rp : env :=
  env_of LocalR (tables [(LEAF, mk "kl" LEAF LEAF ["kl"] [TA] md_rp_only None [] 1000%Z); (TA, ta_cfg)]
                        [(fetch_key "https://ta.example/fetch" LEAF, about "kt" TA LEAF "kl")]) [] [] [] no_remote.

Definition canon0 (s : string) : option string := if free "?" s && free "#" s then Some s else None.
Lemma canon0_keeps : keeps_base canon0.
Proof.
  intros b b'. unfold canon0. destruct (free "?" b) eqn:A; [|discriminate]. destruct (free "#" b) eqn:B; [|discriminate].
  cbn. intros [= <-]. now rewrite !cut_free.
Qed.
Definition x0 (body : json) : oracles := Oracles 1000 (Some "uuid") (fun _ => Some "signed") canon0 (fun _ _ => Some body).
Definition ME := "https://me.example".
Definition leaf_me : leaf := new_leaf ME tas0.
Definition AUTH := "https://leaf.example/auth".
(** The caller's maps: claims and parameters. *)
Definition claims0 : smap (option json) :=
  [("aud", Some (JStr LEAF)); ("sub", Some (JStr "x")); ("client_secret", Some (JStr "s")); ("prompt", Some (JStr "login"))].
Definition params0 : values :=
  [("state", Some ["mine"]); ("prompt", Some ["login"]); ("client_id", Some ["evil"]); ("ui_locales", Some ["de"; "en"])].
Definition heap0 : heap := [CAny claims0; CVals params0].

(** *** C64 *)
Lemma c64_case : any_at heap0 (Some 0) claims0 /\ NoDup (keys claims0) /\
  (forall k, lookup k claims0 <> Some None) /\ lookup "aud" claims0 <> None /\
  exists h', request_object (x0 JNull) (Producer ME 60) heap0 (Some 0) = (Ok "signed", h').
Proof.
  split; [exists 0; split; reflexivity|]. split; [repeat constructor; cbn; intuition discriminate|]. split; [|split].
  - intros k E. apply lookup_In in E. destruct E as [[=]|[[=]|[[=]|[[=]|[]]]]].
  - discriminate.
  - eexists. vm_compute. reflexivity.
Qed.

(** *** C65 *)
Lemma c65_case : keeps_base (lo_canon (x0 JNull)) /\ NoDup (keys (read_values heap0 (Some 1))) /\
  exists url h', get_authorization_url 9 (env_op AUTH) [] (x0 JNull) leaf_me heap0 LEAF "https://me.example/cb?x=1&y" "st" "openid email" (Some 1)
    = (Done (Ok url), h') /\
  url = "https://leaf.example/auth?client_id=https%3A%2F%2Fme.example&redirect_uri=https%3A%2F%2Fme.example%2Fcb%3Fx%3D1%26y&request=signed&response_type=code&scope=openid+email".
Proof.
  split; [exact canon0_keeps|]. split; [repeat constructor; cbn; intuition discriminate|].
  eexists. eexists. split; vm_compute; reflexivity.
Qed.
Definition tokens0 : json := JObj [("access_token", JStr "at"); ("token_type", JStr "Bearer"); ("expires_in", JNum (3600 # 1))].
Lemma c65_exchange_case : NoDup (keys (read_values heap0 (Some 1))) /\
  exists ts ex h', code_exchange 9 (env_op AUTH) [] (x0 tokens0) leaf_me heap0 LEAF "c0de" "https://me.example/cb" (Some 1)
    = (Done (Ok (Tokens ts ex)), h') /\ hd_error ts = Some (GStr "at").
Proof.
  split; [repeat constructor; cbn; intuition discriminate|]. eexists. eexists. eexists. split; vm_compute; reflexivity.
Qed.

(** *** C66 *)
Lemma c66_request : exists x rp h l jwt h', request_object x rp h l = (Ok jwt, h') /\ ~ preserved h h'.
Proof.
  exists (x0 JNull), (Producer ME 60), heap0, (Some 0), "signed". eexists. split; [vm_compute; reflexivity|].
  intros P. specialize (P 0 ltac:(cbn; lia)). discriminate.
Qed.
Lemma c66_exchange : exists fuel e p x f h issuer code redirect l r h',
  code_exchange fuel e p x f h issuer code redirect l = (Done (Ok r), h') /\ ~ preserved h h' /\
  (exists a v, l = Some a /\ nth_error h' a = Some (CVals v) /\ lookup "code" v = Some (Some [code]) /\
               lookup "client_assertion" v <> None).
Proof.
  exists 9, (env_op AUTH), [], (x0 tokens0), leaf_me, heap0, LEAF, "c0de", "https://me.example/cb", (Some 1). eexists. eexists.
  split; [vm_compute; reflexivity|]. split; [intros P; specialize (P 1 ltac:(cbn; lia)); discriminate|].
  exists 1. eexists. split; [reflexivity|]. split; [reflexivity|]. split; [reflexivity|discriminate].
Qed.

(** *** C67 *)
Lemma c67_witness : exists fuel e p x f h issuer redirect state scope l op url h',
  keeps_base (lo_canon x) /\ resolve_op fuel e p (lf_anchors f) issuer = Done (Ok (Some op)) /\
  get_authorization_url fuel e p x f h issuer redirect state scope l = (Done (Ok url), h') /\
  values_of "tenant" (read_query (query_of (op_str "AuthorizationEndpoint" op))) = ["1"] /\
  values_of "tenant" (read_query (query_of url)) = [].
Proof.
  exists 9, (env_op "https://leaf.example/auth?tenant=1"), [], (x0 JNull), leaf_me, [], LEAF, "cb", "st", "openid", None.
  eexists. eexists. eexists. split; [exact canon0_keeps|]. split; [vm_compute; reflexivity|]. split; [vm_compute; reflexivity|].
  split; vm_compute; reflexivity.
Qed.

(** *** C79 *)
Lemma c79_case : NoDup (keys [("a&b=c", Some ["x y"; "%"; "+&"]); ("", Some [""])]) /\
  encode [("a&b=c", Some ["x y"; "%"; "+&"]); ("", Some [""])] = "=&a%26b%3Dc=x+y&a%26b%3Dc=%25&a%26b%3Dc=%2B%26".
Proof. split; [repeat constructor; cbn; intuition discriminate|vm_compute; reflexivity]. Qed.

(** *** C80 *)
Lemma c80_case : client_assertion (x0 JNull) (Producer ME 60) "https://leaf.example/token" = Ok "signed".
Proof. vm_compute. reflexivity. Qed.

(** *** C81: an empty object is taken for a token response *)
Lemma c81_witness : exists fuel e p x f h issuer code redirect l ts ex h',
  code_exchange fuel e p x f h issuer code redirect l = (Done (Ok (Tokens ts ex)), h') /\
  (forall ep form, lo_post x ep form = Some (JObj [])) /\ hd_error ts = Some (GStr "").
Proof.
  exists 9, (env_op AUTH), [], (x0 (JObj [])), leaf_me, heap0, LEAF, "c0de", "https://me.example/cb", None.
  eexists. eexists. eexists. split; [vm_compute; reflexivity|]. split; [reflexivity|reflexivity].
Qed.
Lemma c81_case : exists vs h', code_exchange 9 (env_op AUTH) [] (x0 (JObj [("error", JStr "invalid_grant")])) leaf_me heap0 LEAF "c0de" "cb" None
  = (Done (Ok (Refused vs)), h') /\ hd_error vs = Some (GStr "invalid_grant").
Proof. eexists. eexists. split; vm_compute; reflexivity. Qed.

(** *** C82: an entity without OP metadata *)
Lemma c82_witness : exists fuel e p x f h issuer redirect state scope l code,
  fst (get_authorization_url fuel e p x f h issuer redirect state scope l) = Done Panic /\
  fst (code_exchange fuel e p x f h issuer code redirect l) = Done Panic.
Proof.
  exists 9, env_rp, [], (x0 tokens0), leaf_me, [], LEAF, "cb", "st", "openid", None, "c0de". split; vm_compute; reflexivity.
Qed.
