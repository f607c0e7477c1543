(** Decoding never panics, and resolution uses what signed documents say. *)
From Coq Require Import QArith.
From Verif Require Import Base BaseFacts GoVal Policy Schema OpFacts Metadata MetadataFacts SpecPolicy SpecMetadata Chain Resolver SpecResolver SpecChain SpecAuth AuthFacts
  FloatTime Json SpecJson JsonFacts TrustMark Leaf Config SpecDecode NoPanicFacts Statement SpecStatement StatementFacts StatementLaws.
From Verif Require Import GoVal.
Local Open Scope nat_scope.
Local Open Scope string_scope.

Lemma value_codec_calm {A} (wrap : A -> sval) zero dec : (forall x, dec x <> Panic) -> calm (value_codec wrap zero dec).
Proof. intros H v j. cbn [c_dec value_codec]. apply bind_no_panic; [apply H|discriminate]. Qed.
Lemma text_codec_calm : calm text_codec.
Proof. intros v j. destruct j; discriminate. Qed.
Lemma strs_calm l : dec_strs l <> Panic.
Proof.
  induction l as [|j l IH]; cbn [dec_strs]; [discriminate|]. apply bind_no_panic; [destruct j; discriminate|].
  intros s _. apply bind_no_panic; [exact IH|discriminate].
Qed.
Lemma names_calm x : dec_names x <> Panic.
Proof. destruct x; cbn [dec_names]; try discriminate. apply bind_no_panic; [apply strs_calm|discriminate]. Qed.
Lemma time_dec_calm x : dec_time x <> Panic.
Proof. destruct x; discriminate. Qed.
Lemma int_dec_calm x : dec_int x <> Panic.
Proof. destruct x; cbn [dec_int]; try discriminate. destruct (_ && _)%bool; discriminate. Qed.
Lemma keyset_calm kc x : @dec_keys (list string) kc x <> Panic.
Proof. unfold dec_keys. destruct x; try discriminate; destruct (kc_dec kc _); discriminate. Qed.
Lemma ptr_calm {A} (dec : json -> res A) : (forall x, dec x <> Panic) -> forall x, dec_ptr dec x <> Panic.
Proof. intros H x. unfold dec_ptr. destruct x; try discriminate; (apply bind_no_panic; [apply H|discriminate]). Qed.
Lemma map_calm {A} (dec : json -> res A) : (forall x, dec x <> Panic) -> forall x, dec_map dec x <> Panic.
Proof.
  intros H x. unfold dec_map. destruct x; try discriminate. apply bind_no_panic; [|discriminate]. apply map_res_np.
  intros kv _. apply bind_no_panic; [apply H|discriminate].
Qed.
Lemma slice_calm {A} (dec : json -> res A) : (forall x, dec x <> Panic) -> forall x, dec_slice dec x <> Panic.
Proof. intros H x. unfold dec_slice. destruct x; try discriminate. apply map_res_np. intros y _. apply H. Qed.
Lemma unmarshal_calm {V} (fs : list (jfield V)) j : (forall f, In f fs -> calm (f_codec f)) -> unmarshal fs j <> Panic.
Proof. intros K. unfold unmarshal. destruct j; try discriminate. now apply fields_calm. Qed.
Lemma entity_calm sch x : dec_entity sch x <> Panic.
Proof. unfold dec_entity. destruct x; try discriminate. apply meta_calm. Qed.
Ltac calm_sfields := let f := fresh in let H := fresh in intros f H; cbn in H;
  repeat (destruct H as [H|H]; [rewrite <- H; cbn [f_codec]; first [apply text_codec_calm | apply value_codec_calm]|]); [..|destruct H].
Theorem metadata_calm x : dec_metadata x <> Panic.
Proof.
  unfold dec_metadata. apply bind_no_panic; [|intros [vs ex] _; discriminate]. apply decode_calm. calm_sfields; apply ptr_calm; intros y; apply entity_calm.
Qed.
Theorem dec_policies_calm x : dec_policies x <> Panic.
Proof. unfold dec_policies. apply bind_no_panic; [apply policies_calm|discriminate]. Qed.
Theorem naming_calm x : dec_naming x <> Panic.
Proof. unfold dec_naming. apply bind_no_panic; [|discriminate]. apply unmarshal_calm. calm_sfields; apply names_calm. Qed.
Theorem constraints_calm x : dec_constraints x <> Panic.
Proof.
  unfold dec_constraints. apply bind_no_panic; [|discriminate]. apply unmarshal_calm.
  calm_sfields; [apply ptr_calm, int_dec_calm|apply ptr_calm, naming_calm|apply names_calm].
Qed.
Theorem owners_calm kc x : dec_owners kc x <> Panic.
Proof.
  apply map_calm. intros y. unfold dec_owner. apply bind_no_panic; [|discriminate]. apply unmarshal_calm. calm_sfields; apply keyset_calm.
Qed.
Theorem issuers_calm x : dec_issuers x <> Panic.
Proof. apply map_calm. intros y. apply bind_no_panic; [apply names_calm|discriminate]. Qed.
Theorem dec_infos_calm x : dec_infos x <> Panic.
Proof. apply slice_calm. intros y. apply infos_calm. Qed.
Theorem statement_calm kc jwt j : dec_statement kc jwt j <> Panic.
Proof.
  unfold dec_statement. apply bind_no_panic; [|intros [vs ex] _; discriminate]. apply decode_calm. calm_sfields.
  all: first [apply time_dec_calm | apply keyset_calm | apply names_calm | apply dec_infos_calm | apply issuers_calm | apply owners_calm
             | apply ptr_calm, metadata_calm | apply ptr_calm, dec_policies_calm | apply ptr_calm, constraints_calm].
Qed.
Theorem parse_calm parse kc jwt : parse_statement parse kc jwt <> Panic.
Proof. unfold parse_statement. destruct (parse jwt) as [[typ j]|]; [|discriminate]. destruct (negb _); [discriminate|apply statement_calm]. Qed.
Theorem dec_response_calm jws j : dec_response jws j <> Panic.
Proof.
  unfold dec_response. apply bind_no_panic; [|intros [vs ex] _; discriminate]. apply decode_calm. calm_sfields.
  - apply ptr_calm, metadata_calm.
  - apply dec_infos_calm.
  - intros x. unfold dec_messages. apply bind_no_panic; [apply names_calm|]. intros l _. destruct (forallb jws _); discriminate.
Qed.

(** ** Chains *)
Lemma world_of_ideal parse kc get fetch now verify host (owns signed : string -> string -> Prop) :
  (forall id jwt ks, (forall k, In k ks -> owns id k) -> verify jwt ks = true -> signed id jwt) ->
  ideal (world_of parse kc get fetch now verify host) (fun jwt => ok_or_none (parse_statement parse kc jwt)) owns signed.
Proof.
  intros U. assert (K : forall o s, match o with Some b => ok_or_none (parse_statement parse kc b) | None => None end = Some s ->
    ok_or_none (parse_statement parse kc (st_jwt s)) = Some s).
  { intros [b|] s E; [|discriminate]. destruct (parse_statement parse kc b) as [s'| |] eqn:D; try discriminate. injection E as ->.
    destruct (parsed_says _ _ _ _ D) as (j & _ & -> & _). now rewrite D. }
  split; cbn [world_of w_config w_fetch w_verify]; [intros p a s; apply K|intros p ep sub iss s; apply K|exact U].
Qed.
Lemma decoded_signed parse kc (signed : string -> string -> Prop) id s :
  ok_or_none (parse_statement parse kc (st_jwt s)) = Some s -> signed id (st_jwt s) -> signed_statement parse kc signed id s.
Proof.
  intros E S. destruct (parse_statement parse kc (st_jwt s)) as [s'| |] eqn:D; try discriminate. injection E as ->.
  destruct (parsed_says _ _ _ _ D) as (j & P & _ & W). exists j. auto.
Qed.
Theorem resolved_documents parse kc get fetch now verify host (owns signed : string -> string -> Prop) tas types start e r md :
  let w := world_of parse kc get fetch now verify host in
  (forall id jwt ks, (forall k, In k ks -> owns id k) -> verify jwt ks = true -> signed id jwt) ->
  (forall ta, In ta tas -> anchor_known w owns ta) ->
  returned w tas types start (e :: r) -> r <> [] ->
  (forall x, In x r -> careful (fun jwt => ok_or_none (parse_statement parse kc jwt)) owns signed (st_iss x)) ->
  chain_metadata (e :: r) = Ok md ->
  exists m pub pm, md = Some m /\ st_metadata pub = Some pm /\
    signed_statement parse kc signed (st_iss pub) pub /\ (forall s, In s r -> signed_statement parse kc signed (st_iss s) s) /\
    leaf_metadata (e :: r) = match types with [] => pm | _ => nil_all_except pm types end /\
    forall t, In t entity_types -> type_result t (e :: r) m.
Proof.
  intros w U A R N C H.
  destruct (returned_metadata w _ owns signed tas types start e r md (world_of_ideal parse kc get fetch now verify host owns signed U) A R N C H)
    as (m & pub & pm & -> & M & D & S & F & L & T).
  exists m, pub, pm. split; [reflexivity|]. split; [exact M|]. split; [now apply decoded_signed|]. split; [|auto].
  intros s I. destruct (F s I). now apply decoded_signed.
Qed.
