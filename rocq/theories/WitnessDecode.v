(** Concrete documents: cases for PropertiesDecode.v. *)
From Coq Require Import QArith Lia.
From Verif Require Import Base BaseFacts GoVal Policy Schema Metadata Chain Resolver FloatTime SpecTime Json SpecJson TrustMark SpecTrustMark
  WitnessResolver WitnessTrustMark Leaf WitnessLeaf Jwt Refresher Cache ListCache Web Config SpecDecode DecodeLaws.
Local Open Scope nat_scope.
Local Open Scope string_scope.

Definition bad_spec : yaml := YMap [("lifetime", YStr "soon")].
Definition bad_policies : json := JObj [("openid_provider", JObj [("scope", JArr [])])].
Lemma c117_case :
  unmarshal_yspec bad_spec zero_yspec = Err /\ unmarshal_yspec (YMap [("lifetime", YNum 60 "60")]) zero_yspec <> Err /\
  unmarshal_policies bad_policies = Err /\ unmarshal_policies (JObj [("openid_provider", JObj [])]) <> Err /\
  decode entity_statement_fields (JObj [("iat", JStr "now")]) = Err /\
  fst (fetch_list 0%Z 0%Z "https://ta.example/list" RFailed (Memory [])) = Err.
Proof.
  split; [vm_compute; reflexivity|]. split; [vm_compute; discriminate|]. split; [vm_compute; reflexivity|].
  split; [vm_compute; discriminate|]. split; vm_compute; reflexivity.
Qed.

Definition granted0 : json := JObj [("access_token", JStr "at"); ("token_type", JStr "Bearer"); ("expires_in", JNum (3600 # 1));
  ("id_token", JStr "it"); ("Scope", JStr "openid"); ("error", JNull); ("not_before", JNum 0)].
Definition refused0 : json := JObj [("error", JStr "invalid_grant"); ("error_description", JStr "used before"); ("access_token", JStr "at")].
Ltac all_fit := repeat (apply Forall_cons || apply Forall_nil);
  first [left; reflexivity | right; eexists; reflexivity | right; exists (3600 # 1), 3600%Z; (split; [reflexivity|]); (split; [reflexivity|lia])].
Lemma c118_case : exists op,
  resolve_op 9 (env_op AUTH) [] (lf_anchors leaf_me) LEAF = Done (Ok (Some op)) /\
  client_assertion (x0 granted0) (lf_producer leaf_me) (op_str "TokenEndpoint" op) = Ok "signed" /\
  (forall form, lo_post (x0 granted0) (op_str "TokenEndpoint" op) form = Some granted0) /\
  token_reply granted0 "at" "Bearer" (JNum (3600 # 1)) "" "openid" "it" /\
  refusal refused0 "invalid_grant" "used before" /\
  fst (code_exchange 9 (env_op AUTH) [] (x0 (JObj [("access_token", JNum 1)])) leaf_me heap0 LEAF "c0de" "cb" None) = Done Err.
Proof.
  eexists. split; [vm_compute; reflexivity|]. split; [vm_compute; reflexivity|]. split; [reflexivity|]. split; [|split; [|vm_compute; reflexivity]].
  - constructor; [right; eexists; reflexivity|..]; unfold says_text, says_int; try (exists ""); cbn; (split; [|reflexivity]); all_fit.
  - constructor; [right; eexists; reflexivity|discriminate|..]; unfold says_text; cbn; (split; [|reflexivity]); all_fit.
Qed.

Definition mark_json : json := JObj [("iss", JStr ISS); ("sub", JStr LEAF); ("trust_mark_type", JStr "tm1"); ("iat", JNum 100);
  ("EXP", JNum 200); ("ref", JStr "https://ref.example"); ("level", JStr "high")].
Definition mark_read0 : mark := Mark ISS LEAF "tm1" (seconds 100) "" (Some (seconds 200)) "https://ref.example" "" [("EXP", JNum 200); ("level", JStr "high")] (Some "m").
Lemma c119_case : mark_says mark_json mark_read0 /\
  (forall m, ~ mark_says (JObj [("iss", JNum 1)]) m) /\
  delegation_says (JObj [("iss", JStr TA); ("sub", JStr ISS); ("trust_mark_type", JStr "tm1"); ("iat", JNum 100)])
    (Deleg TA ISS "tm1" (seconds 100) None "" [] (Some "d")) /\
  info_says (JObj [("trust_mark_type", JStr "tm1"); ("trust_mark", JStr "m")]) (Info "tm1" "m" [] None).
Proof.
  split; [|split; [|split]].
  - constructor; [right; eexists; reflexivity|..]; unfold says_text, says_time, says_opt_time; cbn;
      try (split; [|vm_compute; reflexivity]; unfold null_or_number; all_fit).
    split; [repeat constructor; cbn; intuition discriminate|]. intros k. cbn. unfold mem. cbn [existsb].
      repeat match goal with |- context [String.eqb k ?s] => destruct (String.eqb_spec k s) as [->|]; [reflexivity|] end. reflexivity.
  - intros m [_ [F _] _ _ _ _ _ _ _ _]. cbn in F. inversion F as [|? ? [E|[t E]] _]; discriminate E.
  - constructor; [right; eexists; reflexivity|..]; unfold says_text, says_time, says_opt_time; cbn;
      try (split; [|vm_compute; reflexivity]; unfold null_or_number; all_fit).
    split; [constructor|]. intros k. cbn. unfold mem. cbn [existsb].
    repeat match goal with |- context [String.eqb k ?s] => destruct (String.eqb_spec k s) as [->|]; [reflexivity|] end. reflexivity.
  - constructor; [right; eexists; reflexivity|..]; unfold says_text; cbn; try (split; [|reflexivity]; all_fit).
    split; [constructor|]. intros k. cbn. unfold mem. cbn [existsb].
    repeat match goal with |- context [String.eqb k ?s] => destruct (String.eqb_spec k s) as [->|]; [reflexivity|] end. reflexivity.
Qed.

Definition spec120 : mark_spec := MarkSpec "tm1" (seconds 60) "" "https://ta.example/logo" [("level", JStr "high")] true "".
Definition own120 : owned := Owned "tm1" (seconds 60) "" [("level", JStr "high")].
Definition sign120 (typ : string) (j : json) : option string := Some typ.
Lemma c120_case :
  lookup "tm1" (new_issuer [spec120]) = Some spec120 /\ NoDup (keys (ms_extra spec120)) /\
  (exists t, issue_mark sign120 ISS (new_issuer [spec120]) (seconds 100) "tm1" LEAF None = Ok t) /\
  lookup "tm1" [("tm1", own120)] = Some own120 /\
  (exists w, delegate sign120 TA [("tm1", own120)] (seconds 100) "tm1" ISS None = Ok w).
Proof.
  split; [reflexivity|]. split; [repeat constructor; intros []|]. split; [eexists; reflexivity|]. split; [reflexivity|]. eexists. reflexivity.
Qed.
