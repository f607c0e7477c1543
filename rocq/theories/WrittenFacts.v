(** Which members written documents have. *)
From Coq Require Import QArith Lia.
From Verif Require Import Base BaseFacts GoVal Policy Schema Metadata MetadataFacts SpecMetadata Chain Resolver FloatTime SpecTime Json SpecJson JsonFacts TrustMark Refresher Leaf Config SpecConfig Jwt SpecDecode DecodeFacts
  Statement SpecStatement StatementFacts StatementLaws Encode SpecEncode EncodeFacts EncodeLaws Respond SpecRespond RespondFacts SpecWritten MergeFacts.
From Verif Require Import GoVal.
Local Open Scope nat_scope.
Local Open Scope string_scope.

Lemma marshal_claim {V} (fs : list (jfield V)) vs extra i f v : NoDup (tags fs) -> apart (tags fs) extra -> nth_error fs i = Some f -> nth_error vs i = Some v ->
  List.length fs = List.length vs ->
  claim (f_tag f) (marshal fs vs extra) = if f_omit f && c_empty (f_codec f) v then None else Some (c_enc (f_codec f) v).
Proof.
  intros Nt [N X] Hf Hv L. unfold marshal. cbn [claim].
  rewrite lookup_rev_NoDup by (apply overlay_NoDup; now apply enc_fields_NoDup). rewrite lookup_overlay, lookup_rev_NoDup by exact N.
  assert (E : lookup (f_tag f) extra = None).
  { apply lookup_None. intros K. apply (X _ K). apply in_map. apply in_map. now apply nth_error_In in Hf. }
  rewrite E. now apply (enc_fields_claim fs vs i).
Qed.
Lemma apart_nil {A} names : apart names (@nil (string * A)). Proof. split; [constructor|intros k []]. Qed.
Lemma apart_json {A} names (m : smap A) (f : A -> json) : apart names m -> apart names (map (fun kv => (fst kv, f (snd kv))) m).
Proof. intros [N X]. unfold apart. rewrite (keys_map f m). auto. Qed.

Ltac member i := refine (marshal_claim _ _ _ i _ _ _ _ eq_refl eq_refl eq_refl); [apply nodupb_ok; vm_compute; reflexivity|].

Theorem written_statement kc p : apart claim_names (sp_extra p) -> let d := enc_statement kc p in let s := sp_claims p in
  claim "iss" d = Some (JStr (st_iss s)) /\ claim "sub" d = Some (JStr (st_sub s)) /\
  claim "iat" d = Some (JNum (encode_time (st_iat s))) /\ claim "exp" d = Some (JNum (encode_time (st_exp s))) /\
  claim "jwks" d = Some (match st_jwks s with Some k => kc_enc kc k | None => JNull end) /\
  claim "authority_hints" d = names_claim (st_hints s) /\ claim "crit" d = names_claim (st_crit s) /\ claim "metadata_policy_crit" d = names_claim (st_policy_crit s) /\
  stated_when (st_metadata s <> None) (claim "metadata" d) /\ stated_when (st_policy s <> None) (claim "metadata_policy" d) /\
  stated_when (st_constraints s <> None) (claim "constraints" d) /\ stated_when (st_marks s <> []) (claim "trust_marks" d) /\
  stated_when (st_mark_issuers s <> []) (claim "trust_mark_issuers" d) /\ stated_when (st_mark_owners s <> []) (claim "trust_mark_owners" d).
Proof.
  intros X d s. unfold d, enc_statement. fold s.
  match goal with |- claim _ (marshal ?fs ?vs ?x) = _ /\ _ => set (FS := fs); set (VS := vs); set (EX := x) end.
  assert (A : apart (tags FS) EX) by exact X.
  assert (Nt : NoDup (tags FS)) by (apply nodupb_ok; vm_compute; reflexivity).
  assert (C : forall i f v, nth_error FS i = Some f -> nth_error VS i = Some v ->
    claim (f_tag f) (marshal FS VS EX) = if f_omit f && c_empty (f_codec f) v then None else Some (c_enc (f_codec f) v)) by (intros i f v Hf Hv; apply (marshal_claim FS VS EX i); auto).
  split; [exact (C 0 _ _ eq_refl eq_refl)|]. split; [exact (C 1 _ _ eq_refl eq_refl)|]. split; [exact (C 2 _ _ eq_refl eq_refl)|]. split; [exact (C 3 _ _ eq_refl eq_refl)|].
  split. { rewrite (C 4 _ _ eq_refl eq_refl : claim "jwks" _ = _). cbn [f_omit with_enc andb]. cbn. unfold enc_keys. destruct (st_jwks s); reflexivity. }
  split. { rewrite (C 6 _ _ eq_refl eq_refl : claim "authority_hints" _ = _). cbn. destruct (st_hints s); reflexivity. }
  split. { rewrite (C 10 _ _ eq_refl eq_refl : claim "crit" _ = _). cbn. destruct (st_crit s); reflexivity. }
  split. { rewrite (C 11 _ _ eq_refl eq_refl : claim "metadata_policy_crit" _ = _). cbn. destruct (st_policy_crit s); reflexivity. }
  assert (SW : forall {T} (x : option T) (c : option json), (x = None -> c = None) -> (forall a, x = Some a -> exists o, c = Some (JObj o)) -> stated_when (x <> None) c).
  { intros T x c H1 H2. split.
    - intros H. destruct x as [a|]; [|contradiction]. destruct (H2 a eq_refl) as [o ->]. eexists. split; [reflexivity|discriminate].
    - intros H. destruct x as [a|]; [|auto]. exfalso. apply H. discriminate. }
  assert (SL : forall {T} (x : list T) (c : option json), (x = [] -> c = None) -> (x <> [] -> exists o, c = Some o /\ o <> JNull) -> stated_when (x <> []) c).
  { intros T x c H1 H2. split; [exact H2|]. intros H. destruct x as [|a x]; [auto|]. exfalso. apply H. discriminate. }
  split. { apply SW; [intros E|intros a E]; rewrite (C 7 _ _ eq_refl eq_refl : claim "metadata" _ = _); rewrite E; cbn; [reflexivity|eauto]. unfold enc_metadata, marshal. eauto. }
  split. { apply SW; [intros E|intros a E]; rewrite (C 8 _ _ eq_refl eq_refl : claim "metadata_policy" _ = _); rewrite E; cbn; [reflexivity|unfold enc_policies, marshal_policies; eauto]. }
  split. { apply SW; [intros E|intros a E]; rewrite (C 9 _ _ eq_refl eq_refl : claim "constraints" _ = _); rewrite E; cbn; [reflexivity|unfold enc_constraints, marshal; eauto]. }
  split. { apply SL; intros E; rewrite (C 12 _ _ eq_refl eq_refl : claim "trust_marks" _ = _); [now rewrite E|]. cbn. destruct (st_marks s); [contradiction|]. cbn. eexists. split; [reflexivity|discriminate]. }
  split. { apply SL; intros E; rewrite (C 13 _ _ eq_refl eq_refl : claim "trust_mark_issuers" _ = _); [now rewrite E|]. cbn. destruct (st_mark_issuers s); [contradiction|]. eexists. split; [reflexivity|discriminate]. }
  apply SL; intros E; rewrite (C 14 _ _ eq_refl eq_refl : claim "trust_mark_owners" _ = _); [now rewrite E|]. cbn. destruct (st_mark_owners s); [contradiction|]. eexists. split; [reflexivity|discriminate].
Qed.

Lemma opt_stated {T} (x : option T) (c : option json) (f : T -> json) : (forall a, f a <> JNull) -> c = option_map f x -> stated_when (x <> None) c.
Proof.
  intros N ->. split.
  - intros H. destruct x as [a|]; [|contradiction]. cbn. eauto.
  - intros H. destruct x as [a|]; [|reflexivity]. exfalso. apply H. discriminate.
Qed.
Theorem written_metadata m t e : apart type_names (md_extra m) ->
  In (t, e) [("openid_provider", md_op m); ("openid_relying_party", md_rp m); ("oauth_authorization_server", md_as m); ("oauth_client", md_oc m); ("oauth_resource", md_pr m); ("federation_entity", md_fe m)] ->
  stated_when (e <> None) (claim t (enc_metadata m)).
Proof.
  intros X I. apply (opt_stated e _ enc_entity); [discriminate|]. unfold enc_metadata.
  match goal with |- claim _ (marshal ?fs ?vs ?x) = _ => set (FS := fs); set (VS := vs); set (EX := x) end.
  assert (A : apart (tags FS) EX) by (apply apart_json; exact X).
  assert (Nt : NoDup (tags FS)) by (apply nodupb_ok; vm_compute; reflexivity).
  assert (C : forall i f v, nth_error FS i = Some f -> nth_error VS i = Some v ->
    claim (f_tag f) (marshal FS VS EX) = if f_omit f && c_empty (f_codec f) v then None else Some (c_enc (f_codec f) v)) by (intros i f v Hf Hv; apply (marshal_claim FS VS EX i); auto).
  destruct I as [[= <- <-]|[[= <- <-]|[[= <- <-]|[[= <- <-]|[[= <- <-]|[[= <- <-]|[]]]]]]].
  - rewrite (C 0 _ _ eq_refl eq_refl : claim "openid_provider" _ = _). cbn. now destruct (md_op m).
  - rewrite (C 1 _ _ eq_refl eq_refl : claim "openid_relying_party" _ = _). cbn. now destruct (md_rp m).
  - rewrite (C 2 _ _ eq_refl eq_refl : claim "oauth_authorization_server" _ = _). cbn. now destruct (md_as m).
  - rewrite (C 3 _ _ eq_refl eq_refl : claim "oauth_client" _ = _). cbn. now destruct (md_oc m).
  - rewrite (C 4 _ _ eq_refl eq_refl : claim "oauth_resource" _ = _). cbn. now destruct (md_pr m).
  - rewrite (C 5 _ _ eq_refl eq_refl : claim "federation_entity" _ = _). cbn. now destruct (md_fe m).
Qed.

Lemma always_rows : forallb (fun x => forallb (fun r => (String.eqb (fr_tag r) "-" || Bool.eqb (fr_omitempty r) (negb (mem (fr_tag r) (snd x))))%bool) (fst x)) always_written = true.
Proof. vm_compute. reflexivity. Qed.
Lemma always_schema sch req : In (sch, req) always_written -> In sch entity_schemas.
Proof. cbn. intros [[= <- <-]|[[= <- <-]|[[= <- <-]|[[= <- <-]|[]]]]]; tauto. Qed.
Lemma rows_typed sch r : In sch entity_schemas -> In r sch -> fr_ty r <> TAny.
Proof.
  assert (B : forallb (fun sch => forallb (fun r => negb (gty_eqb TAny (fr_ty r))) sch) entity_schemas = true) by (vm_compute; reflexivity).
  intros Hs Hr E. rewrite forallb_forall in B. specialize (B _ Hs). rewrite forallb_forall in B. specialize (B _ Hr). rewrite E in B. discriminate.
Qed.
Lemma row_lookup l r v : NoDup (map fr_tag (map fst l)) -> In (r, v) l -> fr_tag r <> "-" ->
  lookup (fr_tag r) (flat_map enc_row l) = if (fr_omitempty r && go_empty v)%bool then None else Some (any_json v).
Proof.
  intros N I Nt. destruct (fr_omitempty r && go_empty v)%bool eqn:B.
  - apply lookup_None. intros K. unfold keys in K. apply in_map_iff in K as ([k x] & E & K). cbn in E. subst k. apply in_flat_map in K as ([r' v'] & I' & K).
    assert (Q : (r', v') = (r, v)).
    { unfold enc_row in K. destruct (String.eqb_spec (fr_tag r') "-"); [destruct K|]. destruct (fr_omitempty r' && go_empty v')%bool; [destruct K|]. destruct K as [[= E _]|[]].
      rewrite map_map in N. clear - N I I' E. induction l as [|a l IH]; [destruct I|]. cbn in N. inversion N as [|? ? Na N']; subst.
      destruct I as [->|I], I' as [->|I']; auto.
      - exfalso. apply Na. cbn. rewrite <- E. now apply (in_map (fun x => fr_tag (fst x)) l (r', v')).
      - exfalso. apply Na. cbn. rewrite E. now apply (in_map (fun x => fr_tag (fst x)) l (r, v)). }
    injection Q as -> ->. unfold enc_row in K. destruct (String.eqb_spec (fr_tag r) "-"); [contradiction|]. rewrite B in K. destruct K.
  - apply In_lookup; [now apply enc_row_nodup|]. apply in_flat_map. exists (r, v). split; [exact I|]. unfold enc_row. destruct (String.eqb_spec (fr_tag r) "-"); [contradiction|]. rewrite B. now left.
Qed.
Theorem written_entity sch req m r v : In (sch, req) always_written -> entity_ok sch m -> In (r, v) (em_fields m) -> fr_tag r <> "-" ->
  (claim (fr_tag r) (enc_entity m) = None <-> blank v /\ ~ In (fr_tag r) req) /\
  (claim (fr_tag r) (enc_entity m) = Some JNull <-> no_pointer v /\ In (fr_tag r) req).
Proof.
  intros H O I Nt. pose proof (always_schema _ _ H) as Hs. 
  assert (Hr : In r sch). { rewrite <- (eo_rows _ _ O). change r with (fst (r, v)). now apply in_map. }
  pose proof always_rows as B. rewrite forallb_forall in B. specialize (B _ H). cbn [fst snd] in B. rewrite forallb_forall in B. specialize (B _ Hr).
  destruct (String.eqb_spec (fr_tag r) "-"); [contradiction|]. cbn [orb] in B. apply Bool.eqb_prop in B.
  pose proof (rows_typed sch r Hs Hr) as Na. pose proof (of_type_blank _ _ Na (eo_values _ _ O r v I Nt)) as Bl. pose proof (of_type_null _ _ Na (eo_values _ _ O r v I Nt)) as Nu.
  assert (Ce : claim (fr_tag r) (enc_entity m) = if (fr_omitempty r && go_empty v)%bool then None else Some (any_json v)).
  { destruct O as [R V [N X] P]. unfold enc_entity. cbn [claim].
    assert (Nt' : NoDup (map fr_tag (map fst (em_fields m)))) by (rewrite R; now apply tags_nodup).
    rewrite lookup_rev_NoDup by (apply overlay_NoDup; now apply enc_row_nodup). rewrite lookup_overlay, lookup_rev_NoDup by (now rewrite extra_json_keys).
    assert (L : lookup (fr_tag r) (map (fun kv => (fst kv, any_json (snd kv))) (extra_value m)) = None).
    { apply lookup_None. rewrite extra_json_keys. intros K. apply (X _ K). apply in_map. now apply in_map. }
    rewrite L. now apply row_lookup. }
  rewrite Ce. destruct (mem (fr_tag r) req) eqn:M.
  - apply mem_In in M. rewrite B. cbn [negb andb]. split; [split; [discriminate|intros [_ F]; contradiction]|]. split.
    + intros [= F]. split; [now apply Nu|exact M].
    + intros [F _]. f_equal. now apply Nu.
  - assert (M' : ~ In (fr_tag r) req) by (now apply mem_nIn). rewrite B. cbn [negb andb]. destruct (go_empty v) eqn:G.
    + split; [split; [intros _; split; [now apply Bl|exact M']|reflexivity]|]. split; [discriminate|intros [_ F]; contradiction].
    + split.
      * split; [discriminate|]. intros [F _]. apply Bl in F. discriminate.
      * split; [|intros [_ F]; contradiction]. intros [= F]. apply Nu in F. exfalso. assert (T : blank v); [|apply Bl in T; discriminate].
        unfold blank. destruct F as [-> | [[t ->]|[t ->]]]; [tauto| |]; eauto 9.
Qed.

Theorem written_constraints c : let d := enc_constraints c in
  claim "max_path_length" d = option_map (fun z => JNum (inject_Z z)) (co_max_path c) /\ stated_when (co_naming c <> None) (claim "naming_constraints" d) /\
  claim "allowed_entity_types" d = match co_types c with Some l => names_claim l | None => None end.
Proof.
  intros d. unfold d, enc_constraints.
  match goal with |- claim _ (marshal ?fs ?vs ?x) = _ /\ _ => set (FS := fs); set (VS := vs) end.
  assert (Nt : NoDup (tags FS)) by (apply nodupb_ok; vm_compute; reflexivity).
  assert (C : forall i f v, nth_error FS i = Some f -> nth_error VS i = Some v ->
    claim (f_tag f) (marshal FS VS []) = if f_omit f && c_empty (f_codec f) v then None else Some (c_enc (f_codec f) v)) by (intros i f v Hf Hv; apply (marshal_claim FS VS [] i); auto; apply apart_nil).
  split. { rewrite (C 0 _ _ eq_refl eq_refl : claim "max_path_length" _ = _). cbn. now destruct (co_max_path c). }
  split. { apply (opt_stated _ _ enc_naming); [discriminate|]. rewrite (C 1 _ _ eq_refl eq_refl : claim "naming_constraints" _ = _). cbn. now destruct (co_naming c). }
  rewrite (C 2 _ _ eq_refl eq_refl : claim "allowed_entity_types" _ = _). cbn. destruct (co_types c) as [[|]|]; reflexivity.
Qed.
Theorem written_naming n : let d := enc_naming n in
  claim "permitted" d = match nc_permitted n with Some l => names_claim l | None => None end /\ claim "excluded" d = names_claim (nc_excluded n).
Proof.
  intros d. unfold d, enc_naming.
  match goal with |- claim _ (marshal ?fs ?vs ?x) = _ /\ _ => set (FS := fs); set (VS := vs) end.
  assert (Nt : NoDup (tags FS)) by (apply nodupb_ok; vm_compute; reflexivity).
  assert (C : forall i f v, nth_error FS i = Some f -> nth_error VS i = Some v ->
    claim (f_tag f) (marshal FS VS []) = if f_omit f && c_empty (f_codec f) v then None else Some (c_enc (f_codec f) v)) by (intros i f v Hf Hv; apply (marshal_claim FS VS [] i); auto; apply apart_nil).
  split.
  - rewrite (C 0 _ _ eq_refl eq_refl : claim "permitted" _ = _). cbn. destruct (nc_permitted n) as [[|]|]; reflexivity.
  - rewrite (C 1 _ _ eq_refl eq_refl : claim "excluded" _ = _). cbn. destruct (nc_excluded n); reflexivity.
Qed.
Theorem written_policies p t q : apart type_names (mp_extra p) ->
  In (t, q) [("openid_provider", mp_op p); ("openid_relying_party", mp_rp p); ("oauth_authorization_server", mp_as p); ("oauth_client", mp_oc p); ("oauth_resource", mp_pr p); ("federation_entity", mp_fe p)] ->
  stated_when (q <> None /\ q <> Some []) (claim t (enc_policies p)).
Proof.
  intros X I. unfold enc_policies, marshal_policies. cbn [jp_known jp_extra].
  set (FS := policies_fields). set (VS := map json_policy _). set (EX := map _ (map _ (mp_extra p))).
  assert (A : apart (tags FS) EX) by (unfold EX; apply (apart_json type_names (map (fun kv => (fst kv, json_policy (snd kv))) (mp_extra p)) enc_policy);
    destruct X as [N X]; unfold apart; rewrite (keys_map json_policy (mp_extra p)); auto).
  assert (Nt : NoDup (tags FS)) by (apply nodupb_ok; vm_compute; reflexivity).
  assert (C : forall i f v, nth_error FS i = Some f -> nth_error VS i = Some v ->
    claim (f_tag f) (JObj (overlay (enc_fields FS VS) EX)) = if f_omit f && c_empty (f_codec f) v then None else Some (c_enc (f_codec f) v)) by (intros i f v Hf Hv; apply (marshal_claim FS VS EX i); auto).
  assert (D : claim t (JObj (overlay (enc_fields FS VS) EX)) = match json_policy q with Some (_ :: _) => Some (enc_policy (json_policy q)) | _ => None end).
  { destruct I as [[= <- <-]|[[= <- <-]|[[= <- <-]|[[= <- <-]|[[= <- <-]|[[= <- <-]|[]]]]]]].
    - rewrite (C 0 _ _ eq_refl eq_refl : claim "openid_provider" _ = _). cbn. destruct (mp_op p) as [[|]|]; reflexivity.
    - rewrite (C 1 _ _ eq_refl eq_refl : claim "openid_relying_party" _ = _). cbn. destruct (mp_rp p) as [[|]|]; reflexivity.
    - rewrite (C 2 _ _ eq_refl eq_refl : claim "oauth_authorization_server" _ = _). cbn. destruct (mp_as p) as [[|]|]; reflexivity.
    - rewrite (C 3 _ _ eq_refl eq_refl : claim "oauth_client" _ = _). cbn. destruct (mp_oc p) as [[|]|]; reflexivity.
    - rewrite (C 4 _ _ eq_refl eq_refl : claim "oauth_resource" _ = _). cbn. destruct (mp_pr p) as [[|]|]; reflexivity.
    - rewrite (C 5 _ _ eq_refl eq_refl : claim "federation_entity" _ = _). cbn. destruct (mp_fe p) as [[|]|]; reflexivity. }
  rewrite D. destruct q as [[|a q]|]; cbn [json_policy option_map map]; split.
  - intros [_ H]. contradiction.
  - reflexivity.
  - intros _. eexists. split; [reflexivity|discriminate].
  - intros H. exfalso. apply H. split; discriminate.
  - intros [H _]. contradiction.
  - reflexivity.
Qed.

Theorem written_response r j : apart response_claims (rp_extra r) -> enc_response r = Ok j ->
  stated_when (pl_metadata (rp_payload r) <> None) (claim "metadata" j) /\ stated_when (pl_marks (rp_payload r) <> []) (claim "trust_marks" j) /\
  claim "trust_chain" j = names_claim (pl_chain (rp_payload r)).
Proof.
  intros A E. apply document in E; [|exact A]. subst j. cbn [claim].
  assert (ND : NoDup (keys (payload_members (rp_payload r) ++ rp_extra r ++ own_members r)%list)).
  { rewrite !keys_app. pose proof (rest_apart r A) as [N X]. rewrite keys_app in *. apply NoDup_app_intro; [apply members_NoDup|exact N|].
    intros k I J. apply members_keys in I. apply (X k J). now apply in_map. }
  assert (L : forall k, In k ["metadata"; "trust_marks"; "trust_chain"] -> lookup k (rev (payload_members (rp_payload r) ++ rp_extra r ++ own_members r)%list) = lookup k (payload_members (rp_payload r))).
  { intros k I. rewrite lookup_rev_NoDup by exact ND. rewrite lookup_app. destruct (lookup k (payload_members (rp_payload r))); [reflexivity|].
    apply lookup_None. rewrite keys_app, in_app_iff. intros [J|J].
    - apply (extra_apart r _ A J). cbn in I |- *. tauto.
    - unfold own_members in J. destruct (String.eqb (rp_aud r) ""); cbn in I, J; intuition (subst; discriminate). }
  rewrite !L by (cbn; tauto).
  unfold payload_members. set (FS := map _ (response_fields _)). set (VS := [_; _; _]).
  assert (Nt : NoDup (tags FS)) by (apply nodupb_ok; vm_compute; reflexivity).
  assert (C : forall i f v, nth_error FS i = Some f -> nth_error VS i = Some v ->
    lookup (f_tag f) (enc_fields FS VS) = if f_omit f && c_empty (f_codec f) v then None else Some (c_enc (f_codec f) v)) by (intros i f v Hf Hv; apply (enc_fields_claim FS VS i); auto).
  split. { apply (opt_stated _ _ enc_metadata); [discriminate|]. rewrite (C 0 _ _ eq_refl eq_refl : lookup "metadata" _ = _). cbn. now destruct (pl_metadata (rp_payload r)). }
  split.
  - rewrite (C 1 _ _ eq_refl eq_refl : lookup "trust_marks" _ = _). cbn. destruct (pl_marks (rp_payload r)); split; try contradiction; try reflexivity.
    + intros _. eexists. split; [reflexivity|discriminate].
    + intros H. exfalso. apply H. discriminate.
  - rewrite (C 2 _ _ eq_refl eq_refl : lookup "trust_chain" _ = _). cbn. destruct (pl_chain (rp_payload r)); reflexivity.
Qed.
