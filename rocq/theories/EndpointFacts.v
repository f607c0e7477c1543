(** The endpoints that are used are those of the documents. *)
From Coq Require Import QArith Lia.
From Verif Require Import Base BaseFacts GoVal Policy Schema Metadata MetadataFacts SpecMetadata Chain Resolver FloatTime SpecTime Json SpecJson JsonFacts TrustMark Leaf Discovery Config SpecDecode DecodeFacts
  Statement SpecStatement StatementFacts StatementLaws Encode SpecEncode SpecRemote TypedFacts RemoteFacts SpecEndpoint.
From Verif Require Import GoVal.
Local Open Scope nat_scope.
Local Open Scope string_scope.

(** A Go field name and its JSON name select the same field. *)
Lemma find_same (l : list (frow * gval)) n t :
  forallb (fun r => Bool.eqb (String.eqb n (fr_name r)) (String.eqb t (fr_tag r))) (map fst l) = true ->
  find (fun fv : frow * gval => String.eqb n (fr_name (fst fv))) l = find (fun fv : frow * gval => String.eqb t (fr_tag (fst fv))) l.
Proof.
  induction l as [|[r v] l IH]; [reflexivity|]. cbn [map fst forallb find]. intros H. apply Bool.andb_true_iff in H as [H1 H2].
  apply Bool.eqb_prop in H1. rewrite H1. destruct (String.eqb t (fr_tag r)); [reflexivity|auto].
Qed.
Lemma get_tag sch m n t : map fst (em_fields m) = sch -> forallb (fun r => Bool.eqb (String.eqb n (fr_name r)) (String.eqb t (fr_tag r))) sch = true ->
  em_get n m = em_tag t m.
Proof. intros R B. unfold em_get, em_tag. rewrite (find_same _ n t); [reflexivity|]. now rewrite R. Qed.
Lemma get_text sch m n t : map fst (em_fields m) = sch -> forallb (fun r => Bool.eqb (String.eqb n (fr_name r)) (String.eqb t (fr_tag r))) sch = true ->
  match em_get n m with Some v => str_of v | None => "" end = attr_text t m.
Proof. intros R B. unfold attr_text. rewrite (get_tag sch m n t R B). destruct (em_tag t m) as [[]|]; reflexivity. Qed.

Lemma endpoint_stated kc j s n t :
  statement_says kc j s -> existsb (fun r => String.eqb t (fr_tag r) && gty_eqb TStr (fr_ty r))%bool fe_schema = true -> t <> "-" ->
  forallb (fun r => Bool.eqb (String.eqb n (fr_name r)) (String.eqb t (fr_tag r))) fe_schema = true ->
  match st_metadata s with
  | Some m => match md_fe m with Some fe => match em_get n fe with Some v => str_of v | None => "" end | None => "" end
  | None => ""
  end = text_at ["metadata"; "federation_entity"; t] j.
Proof.
  intros S B1 Nt B2. cbn [text_at]. pose proof (ss_metadata _ _ _ S) as Sm.
  assert (Z : forall k, stated k JNull = JNull) by reflexivity.
  assert (None_null : forall {A} (means : json -> A -> Prop) x k, says (optional means) None x k None -> stated k x = JNull).
  { intros A means x k [_ H]. unfold stated. rewrite last_hd. destruct (rev (members k x)); [reflexivity|exact H]. }
  destruct (st_metadata s) as [m|]; [|rewrite (None_null _ _ _ _ Sm); now rewrite !Z].
  pose proof (says_stated _ _ _ _ Sm m eq_refl) as M. pose proof (ms_fe _ _ M) as Sf.
  destruct (md_fe m) as [fe|]; [|rewrite (None_null _ _ _ _ Sf); now rewrite Z].
  pose proof (says_stated _ _ _ _ Sf fe eq_refl) as F. rewrite (get_text fe_schema fe n t (es_rows _ _ _ F) B2).
  apply existsb_exists in B1 as (r & Hr & B1). apply Bool.andb_true_iff in B1 as [Et Ey]. apply String.eqb_eq in Et. subst t. apply gty_eqb_true in Ey.
  destruct (es_attributes _ _ _ F r Hr Nt) as (v & Ev & At). unfold attr_text. rewrite Ev. rewrite <- Ey in At.
  destruct At as [(x & -> & ->)|[-> ->]]; reflexivity.
Qed.
Theorem endpoints_stated parse kc jwt s typ j : parse_statement parse kc jwt = Ok s -> parse jwt = Some (typ, j) -> plain j ->
  fetch_endpoint s = text_at ["metadata"; "federation_entity"; "federation_fetch_endpoint"] j /\
  list_endpoint s = text_at ["metadata"; "federation_entity"; "federation_list_endpoint"] j /\
  resolve_endpoint s = text_at ["metadata"; "federation_entity"; "federation_resolve_endpoint"] j /\
  mark_endpoint s = text_at ["metadata"; "federation_entity"; "federation_trust_mark_endpoint"] j.
Proof.
  intros D E P. destruct (parsed_says _ _ _ _ D) as (j' & E' & _ & S). rewrite E in E'. injection E' as _ <-. specialize (S P).
  split; [|split; [|split]]; (apply (endpoint_stated kc j s); [exact S|vm_compute; reflexivity|discriminate|vm_compute; reflexivity]).
Qed.
Theorem provider_stated op : map fst (em_fields op) = op_schema ->
  op_str "Issuer" op = attr_text "issuer" op /\ op_str "AuthorizationEndpoint" op = attr_text "authorization_endpoint" op /\
  op_str "TokenEndpoint" op = attr_text "token_endpoint" op.
Proof. intros R. split; [|split]; apply (get_text op_schema); auto; vm_compute; reflexivity. Qed.

Definition texts_only (l : list gval) : Prop := forall w, In w l -> exists s, w = VStr s.
Lemma texts_map l : texts_only l -> flat_map (fun v => match v with VStr s => [s] | _ => [] end) l = map str_of l.
Proof. induction l as [|w l IH]; intros T; [reflexivity|]. cbn [flat_map map]. destruct (T w (or_introl eq_refl)) as [s ->]. cbn [app str_of]. f_equal. apply IH. intros x I. apply T. now right. Qed.
Lemma contains_text s l : texts_only l -> (existsb (deep_eq (VStr s)) l = true <-> In s (map str_of l)).
Proof.
  intros T. rewrite existsb_exists. split.
  - intros (w & I & E). destruct (T w I) as [s' ->]. cbn in E. apply String.eqb_eq in E. subst. apply in_map_iff. exists (VStr s'). auto.
  - intros I. apply in_map_iff in I as (w & E & I). exists w. split; [exact I|]. destruct (T w I) as [s' ->]. cbn in E. subst s'. cbn. apply String.eqb_refl.
Qed.
Lemma list_tag op n t : entity_ok op_schema op -> existsb (fun r => String.eqb t (fr_tag r) && gty_eqb (TSlice TStr) (fr_ty r))%bool op_schema = true -> t <> "-" ->
  forallb (fun r => Bool.eqb (String.eqb n (fr_name r)) (String.eqb t (fr_tag r))) op_schema = true ->
  exists nl l, em_get n op = Some (VSlice TStr nl l) /\ texts_only l /\ attr_texts t op = map str_of l.
Proof.
  intros [R V _ _] B1 Nt B2. apply existsb_exists in B1 as (r & Hr & B1). apply Bool.andb_true_iff in B1 as [Et Ey]. apply String.eqb_eq in Et. subst t. apply gty_eqb_true in Ey.
  assert (I : exists v, In (r, v) (em_fields op)).
  { rewrite <- R in Hr. apply in_map_iff in Hr as ([r' v] & E & I). cbn in E. subst r'. eauto. }
  destruct I as [v I]. pose proof (V r v I Nt) as T. rewrite <- Ey in T. cbn [of_type] in T.
  rewrite (get_tag op_schema op n (fr_tag r) R B2).
  assert (E : em_tag (fr_tag r) op = Some v).
  { unfold em_tag. rewrite (find_tag (em_fields op) r v); [reflexivity| |exact I]. rewrite R. apply tags_nodup. cbn. tauto. }
  unfold attr_texts. rewrite E. destruct T as [-> | (l & -> & T)].
  - exists true, []. split; [reflexivity|]. split; [intros w []|reflexivity].
  - exists false, l. split; [reflexivity|]. split; [exact T|]. now apply texts_map.
Qed.
Lemma supports_tag n t needed m op : entity_ok op_schema op -> md_op m = Some op ->
  existsb (fun r => String.eqb t (fr_tag r) && gty_eqb (TSlice TStr) (fr_ty r))%bool op_schema = true -> t <> "-" ->
  forallb (fun r => Bool.eqb (String.eqb n (fr_name r)) (String.eqb t (fr_tag r))) op_schema = true ->
  exists b, supports_all n needed (Some m) = Ok b /\ (b = true <-> incl needed (attr_texts t op)).
Proof.
  intros O M B1 Nt B2. destruct (list_tag op n t O B1 Nt B2) as (nl & l & E & T & ->). unfold supports_all. rewrite M, E. unfold is_subset_of, strings. cbn [slicify elems bind].
  eexists. split; [reflexivity|]. rewrite forallb_forall. unfold slice_contains. split.
  - intros H x I. apply contains_text; [exact T|]. apply H. now apply in_map.
  - intros H w I. apply in_map_iff in I as (s & <- & I). apply contains_text; auto.
Qed.
Theorem provider_filters m op needed how : md_op m = Some op -> entity_ok op_schema op ->
  (exists b, supports_grants needed (Some m) = Ok b /\ (b = true <-> incl needed (attr_texts "grant_types_supported" op))) /\
  (exists b, supports_scopes needed (Some m) = Ok b /\ (b = true <-> incl needed (attr_texts "scopes_supported" op))) /\
  (registers how (Some m) = true <-> In how (attr_texts "client_registration_types_supported" op)).
Proof.
  intros M O. split; [|split].
  - apply (supports_tag _ _ needed m op O M); [vm_compute; reflexivity|discriminate|vm_compute; reflexivity].
  - apply (supports_tag _ _ needed m op O M); [vm_compute; reflexivity|discriminate|vm_compute; reflexivity].
  - unfold registers. rewrite M. destruct (list_tag op "ClientRegistrationTypesSupported" "client_registration_types_supported" O) as (nl & l & E & T & ->);
      [vm_compute; reflexivity|discriminate|vm_compute; reflexivity|].
    unfold op_list. rewrite E. split; [apply mem_In|intros I; now apply mem_In].
Qed.
