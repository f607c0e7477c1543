(** Decoding never panics, whatever the document. *)
From Coq Require Import QArith.
From Verif Require Import Base BaseFacts GoVal Policy Schema OpFacts Metadata MetadataFacts Chain Resolver FloatTime SpecTime Json SpecJson JsonFacts TrustMark TrustMarkFacts Jwt Refresher Cache ListCache Web Leaf Config.
Local Open Scope nat_scope.
Local Open Scope string_scope.

Definition calm {V} (c : codec V) : Prop := forall v j, c_dec c v j <> Panic.
Lemma fields_calm {V} (fs : list (jfield V)) o : forall vs, (forall f, In f fs -> calm (f_codec f)) -> dec_fields fs o vs <> Panic.
Proof.
  induction o as [|[k j] o IH]; intros vs K; cbn [dec_fields]; [discriminate|].
  destruct (field_of (tags fs) k) as [i|]; [|now apply IH].
  destruct (nth_error fs i) as [f|] eqn:Ef; [|now apply IH].
  destruct (nth_error vs i) as [v|] eqn:Ev; [|now apply IH].
  pose proof (K f (nth_error_In _ _ Ef) v j) as N.
  destruct (c_dec (f_codec f) v j); cbn; [now apply IH|discriminate|contradiction].
Qed.
Lemma decode_calm {V} (fs : list (jfield V)) j vs : (forall f, In f fs -> calm (f_codec f)) -> unmarshal_with_extra fs j vs <> Panic.
Proof.
  intros K. unfold unmarshal_with_extra. destruct j as [| | | | |o]; try discriminate.
  apply bind_no_panic; [now apply fields_calm|discriminate].
Qed.
Lemma str_calm : calm str_codec.
Proof. intros v j. destruct j; discriminate. Qed.
Lemma time_calm : calm time_codec.
Proof. intros v j. destruct j; discriminate. Qed.
Lemma time_ptr_calm : calm time_ptr_codec.
Proof. intros v j. destruct j; discriminate. Qed.
Lemma raw_calm : calm raw_codec.
Proof. intros v j. discriminate. Qed.
Lemma list_calm : calm list_codec.
Proof.
  intros v j. destruct j as [| | | |l|]; try discriminate. cbn [c_dec list_codec]. apply bind_no_panic; [|discriminate].
  induction l as [|j l IH]; cbn [dec_strs]; [discriminate|]. apply bind_no_panic; [destruct j; discriminate|].
  intros s _. apply bind_no_panic; [exact IH|discriminate].
Qed.
Lemma int_calm : calm int_codec.
Proof. intros v j. cbn [c_dec int_codec]. destruct j; try discriminate. destruct (_ && _)%bool; discriminate. Qed.
Lemma entries_calm o : forall m, dec_entries o m <> Panic.
Proof. induction o as [|[a b] o IH]; intros m; [discriminate|]. destruct b; cbn [dec_entries]; try discriminate; apply IH. Qed.
Lemma policy_calm : calm policy_codec.
Proof. intros p b. destruct b; cbn; try discriminate. apply bind_no_panic; [apply entries_calm|discriminate]. Qed.

Ltac calm_fields := let f := fresh in let H := fresh in intros f H; cbn in H;
  repeat (destruct H as [H|H]; [rewrite <- H; cbn [f_codec]; first [apply str_calm | apply time_calm | apply time_ptr_calm | apply raw_calm | apply list_calm | apply int_calm | apply policy_calm]|]);
  destruct H.

Theorem structs_calm fs j vs : In fs extra_types -> unmarshal_with_extra fs j vs <> Panic.
Proof.
  intros I. apply decode_calm. revert I. unfold extra_types. cbn [In].
  intros [<- |[<- |[<- |[<- |[<- |[]]]]]]; calm_fields.
Qed.
Theorem responses_calm j r : unmarshal_response j r <> Panic.
Proof. unfold unmarshal_response. apply bind_no_panic; [apply decode_calm; calm_fields|]. intros [vs x] _. discriminate. Qed.
Theorem infos_calm j t : unmarshal_info j t <> Panic.
Proof. unfold unmarshal_info. apply bind_no_panic; [apply decode_calm; calm_fields|]. intros [vs x] _. discriminate. Qed.
Theorem policies_calm j : unmarshal_policies j <> Panic.
Proof.
  unfold unmarshal_policies. apply bind_no_panic; [apply decode_calm; calm_fields|]. intros [vs x] _.
  apply bind_no_panic; [destruct x as [|[k v] x]; discriminate|discriminate].
Qed.
Theorem sos_calm {T} (dec : json -> option T) j : unmarshal_sos dec j <> Panic.
Proof. unfold unmarshal_sos. destruct (dec j); [discriminate|]. destruct j; try discriminate. destruct (dec_all dec l); discriminate. Qed.
Theorem ysos_calm {T} (dec : yaml -> option T) old y : unmarshal_ysos dec old y <> Panic.
Proof.
  unfold unmarshal_ysos. destruct y; try discriminate; destruct (dec _); try discriminate. destruct (ydec_all dec l); discriminate.
Qed.
Lemma yspec_member_calm k y s : yspec_member k y s <> Panic.
Proof.
  unfold yspec_member.
  repeat match goal with |- (if ?c then _ else _) <> Panic => destruct c end; try discriminate;
    (apply bind_no_panic; [|discriminate]); destruct y; try discriminate; cbn [ybool].
  all: repeat match goal with |- (if ?c then _ else _) <> Panic => destruct c end; discriminate.
Qed.
Theorem yspec_calm y s : unmarshal_yspec y s <> Panic.
Proof.
  unfold unmarshal_yspec. destruct y; try discriminate. destruct (unique _); [|discriminate]. apply bind_no_panic; [|discriminate].
  revert s. induction o as [|[k y] o IH]; intros s; cbn [yspec_members]; [discriminate|]. apply bind_no_panic; [apply yspec_member_calm|auto].
Qed.
Theorem duration_calm old y : yduration old y <> Panic.
Proof. destruct y; discriminate. Qed.
Theorem keys_calm {K} (kc : keycodec K) j : dec_keys kc j <> Panic.
Proof. unfold dec_keys. destruct j; try discriminate; destruct (kc_dec kc _); discriminate. Qed.
Theorem keys_yaml_calm {K} (kc : keycodec K) old y : dec_keys_yaml kc old y <> Panic.
Proof. unfold dec_keys_yaml. destruct y; try discriminate. destruct (unique _); [apply keys_calm|discriminate]. Qed.

Lemma value_calm t : forall j, decode_value t j <> Panic.
Proof.
  induction t; intros j; cbn [decode_value]; destruct j; try discriminate.
  all: (apply bind_no_panic; [|discriminate]); apply map_res_np; intros x _; first [apply IHt | (apply bind_no_panic; [apply IHt|discriminate])].
Qed.
Theorem meta_calm sch obj : decode_meta sch obj <> Panic.
Proof.
  unfold decode_meta. apply bind_no_panic; [|discriminate]. apply map_res_np. intros r _. unfold decode_field.
  destruct (String.eqb (fr_tag r) "-"); [discriminate|]. destruct (lookup (fr_tag r) obj); [|discriminate].
  apply bind_no_panic; [apply value_calm|discriminate].
Qed.

Theorem jwt_calm cx typ jwt : parse_typed cx typ jwt <> Panic.
Proof. unfold parse_typed. destruct (cx_parse cx jwt) as [m|]; [|discriminate]. destruct (verify_type m typ); discriminate. Qed.
Theorem response_calm e body : parse_response e body <> Panic.
Proof.
  unfold parse_response. destruct (te_parse e body) as [[typ j]|]; [|discriminate]. destruct (negb _); [discriminate|].
  destruct (te_payload e j); discriminate.
Qed.
Theorem document_calm {D} err_of (parse : string -> res D) r : (forall b, parse b <> Panic) -> http_document err_of parse r <> Panic.
Proof.
  intros P. unfold http_document. apply bind_no_panic; [|auto]. unfold http_get. destruct r as [|status js b]; [discriminate|].
  destruct (_ && _)%bool; discriminate.
Qed.
Theorem listing_calm t0 t1 ep r k : fst (fetch_list t0 t1 ep r k) <> Panic.
Proof. unfold fetch_list. destruct (list_cache_get t0 ep k) as [[ids|] k']; [discriminate|]. destruct r; discriminate. Qed.
Theorem verify_config_calm parse sub ep sign c : verify_mconfig parse sub ep sign c <> Panic.
Proof.
  unfold verify_mconfig. destruct (negb _); [destruct (parse (mc_jwt c)) as [[[a b] [t|]]|]; discriminate|].
  destruct (mc_self c); [destruct (String.eqb _ _); discriminate|]. destruct (_ || _)%bool; discriminate.
Qed.
Theorem token_calm j vs : unmarshal_with_extra token_fields j vs <> Panic.
Proof. apply decode_calm. calm_fields. Qed.
