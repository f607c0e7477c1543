(** Logins with providers of a federation. *)
From Coq Require Import QArith Lia.
From Verif Require Import Base BaseFacts GoVal Policy Schema Metadata SpecMetadata MetadataFacts Chain Resolver SpecResolver ResolverFacts ResolverLaws SpecChain ChainFacts SpecExact ExactFacts
  Json TrustMark SpecTrustMark TrustMarkFacts TrustMarkLaws Refresher Leaf SpecLeaf LeafFacts Config Jwt SpecJwt Statement Encode SpecEncode EncodeFacts EncodeLaws
  MetaCacheFacts Federation SpecFederation FederationFacts SpecFedMark FedCollectFacts SpecFedLogin.
From Verif Require Import SpecEncode GoVal.
Local Open Scope nat_scope.
Local Open Scope string_scope.

(** ** The metadata of the provider *)
Lemma provider_start n f y c ch : sound_participant n y -> publishes n [] y c -> provider_chain n f y ch ->
  exists e m r, ch = e :: r /\ st_metadata e = Some (nil_all_except m provider) /\ metadata_read (pa_metadata y) m.
Proof.
  intros S P (fuel & cs & H & Hc). pose proof (valid_returned _ _ _ _ _ _ _ H Hc) as R. apply returned_root in R as (e & (_ & s & m & EC & EM & ->) & R).
  destruct (published_read n [] y c S P) as (e0 & G & RD & _). rewrite EC in G. injection G as <-.
  destruct (configuration_describes n [] y c s P RD) as [_ _ _ _ _ (m0 & E0 & M0)]. rewrite EM in E0. injection E0 as <-.
  exists (with_metadata s (Some (nil_all_except m provider))), m.
  destruct R as [[-> _]|(h & hs & _ & _ & ->)]; [exists []|unfold chain_along; eexists]; (split; [reflexivity|split; [reflexivity|exact M0]]).
Qed.
Lemma tag_read sch m m' a v : a <> "-" -> entity_read sch m m' -> em_tag a m = Some (VStr v) -> em_tag a m' = Some (VStr v).
Proof.
  intros N R T. unfold em_tag in T. destruct (find _ (em_fields m)) as [[r v0]|] eqn:F; [|discriminate]. injection T as ->.
  apply find_some in F as [I F]. apply String.eqb_eq in F. cbn [fst] in F. subst a.
  destruct (er_values _ _ _ R r (VStr v) I) as (v' & G & [-> | [(? & X & _)|(? & X & _)]]); try discriminate; assumption.
Qed.
Lemma applied_rows m p m' : apply_policy m p = Ok m' -> map fst (em_fields m') = map fst (em_fields m).
Proof.
  intros H. apply apply_policy_fields in H as [_ H]. induction H as [|[r v] [r' v'] l l' H F IH]; [reflexivity|]. cbn [map fst]. rewrite IH. f_equal.
  unfold apply_field in H. destruct (lookup (fr_tag r) p); [|now injection H as <- <-]. apply bind_ok in H as (a & _ & H). apply bind_ok in H as (b & _ & H). now injection H as <- _.
Qed.
Theorem provider_metadata n f y c ch m o : sound_participant n y -> publishes n [] y c -> provider_chain n f y ch -> chain_metadata ch = Ok (Some m) ->
  md_op (pa_metadata y) = Some o ->
  exists o', md_op m = Some o' /\ map fst (em_fields o') = op_schema /\
    forall a v, a <> "-" -> unruled ch a -> em_tag a o = Some (VStr v) -> em_tag a o' = Some (VStr v).
Proof.
  intros S P CT CM EO. destruct (provider_start n f y c ch S P CT) as (e & m0 & r & -> & EM & RM).
  pose proof (mr_op _ _ RM) as B. rewrite EO in B. destruct (md_op m0) as [o0|] eqn:E0; [|contradiction]. cbn in B.
  assert (EL : md_op (nil_all_except m0 provider) = Some o0) by (unfold nil_all_except; cbn [md_op]; rewrite E0; reflexivity).
  destruct r as [|e1 r].
  - cbn in CM. injection CM as CM. rewrite EM in CM. injection CM as <-. exists o0. split; [exact EL|]. split; [apply B|]. intros a v N _ T. eapply tag_read; eauto.
  - apply chain_metadata_types in CM as (m1 & EQ & T & _); [|cbn; lia]. injection EQ as <-. destruct (T (md_op, mp_op)) as (q & C & K); [now left|]. cbn [fst snd] in C, K.
    assert (LM : md_op (leaf_metadata (e :: e1 :: r)) = Some o0) by (cbn [leaf_metadata]; now rewrite EM).
    rewrite LM in K. destruct q as [q|].
    + destruct K as (o' & A & E'). exists o'. split; [exact E'|]. split; [rewrite (applied_rows _ _ _ A); apply B|]. intros a v N U X.
      rewrite <- (tag_read _ _ _ _ _ N B X). eapply apply_policy_frame; [exact A|].
      destruct (lookup a q) eqn:L; [|reflexivity]. exfalso. assert (I : In a (keys (pol (Some q)))) by (apply lookup_keys; cbn [pol]; congruence).
      destruct (combine_keys_in _ _ C a I) as (q' & I1 & I2). unfold policies_of in I1. apply in_flat_map in I1 as (s & Is & I1).
      destruct (st_policy s) as [ps|] eqn:Ep; [|destruct I1]. destruct I1 as [<-|[]]. exact (U s ps Is Ep I2).
    + exists o0. split; [exact K|]. split; [apply B|]. intros a v N _ X. eapply tag_read; eauto.
Qed.

Lemma said name a o v : forallb (paired name a) op_schema = true -> map fst (em_fields o) = op_schema -> em_tag a o = Some (VStr v) -> op_str name o = v.
Proof. intros P R T. unfold op_str. rewrite (get_tag name a o) by now rewrite R. now rewrite T. Qed.
Lemma resolved fuel e p f y n op : asks e p f y n -> resolve_op fuel e p (lf_anchors f) (pa_id y) = Done (Ok op) ->
  exists ch m, provider_chain n f y ch /\ chain_metadata ch = Ok (Some m) /\ op = md_op m.
Proof. intros [L W] R. apply op_sound in R as (ch & m & CT & CM & E); [|exact L]. change (["openid_provider"]) with provider in CT. rewrite W in CT. exists ch, m. auto. Qed.

Theorem login_address fuel e p x f h y n c redirect state scope l url h' : asks e p f y n -> sound_participant n y -> publishes n [] y c ->
  keeps_base (lo_canon x) -> NoDup (keys (read_values h l)) ->
  get_authorization_url fuel e p x f h (pa_id y) redirect state scope l = (Done (Ok url), h') ->
  exists ch, provider_chain n f y ch /\
    (forall ep, op_says y "authorization_endpoint" ep -> unruled ch "authorization_endpoint" ->
       lo_canon x (base_of ep) = Some (base_of url) /\ fragment_of url = fragment_of ep) /\
    (forall iss, op_says y "issuer" iss -> unruled ch "issuer" ->
       exists ro o, values_of "request" (read_query (query_of url)) = [ro] /\ lo_sign x (JObj o) = Some ro /\
         authorization_claims iss redirect state scope (read_values h l) o).
Proof.
  intros A S P KB ND G. destruct (authorization_ok _ _ _ _ _ _ _ _ _ _ _ _ _ KB ND G) as (op & ro & o & R & SG & _ & AC & CB & FR & Q).
  destruct (resolved _ _ _ _ _ _ _ A R) as (ch & m & CT & CM & E). exists ch. split; [exact CT|]. split.
  - intros ep (o1 & EO & T) U. destruct (provider_metadata n f y c ch m o1 S P CT CM EO) as (o' & E' & RW & K). rewrite E' in E. injection E as ->.
    assert (X : op_str "AuthorizationEndpoint" o' = ep) by (apply (said _ "authorization_endpoint"); [vm_compute; reflexivity|exact RW|apply K; [discriminate|exact U|exact T]]).
    rewrite X in CB, FR. auto.
  - intros iss (o1 & EO & T) U. destruct (provider_metadata n f y c ch m o1 S P CT CM EO) as (o' & E' & RW & K). rewrite E' in E. injection E as ->.
    assert (X : op_str "Issuer" o' = iss) by (apply (said _ "issuer"); [vm_compute; reflexivity|exact RW|apply K; [discriminate|exact U|exact T]]).
    rewrite X in AC. exists ro, o. split; [exact (Q "request")|]. auto.
Qed.
Theorem login_code fuel e p x f h y n c code redirect l r h' : asks e p f y n -> sound_participant n y -> publishes n [] y c ->
  NoDup (keys (read_values h l)) ->
  code_exchange fuel e p x f h (pa_id y) code redirect l = (Done (Ok r), h') ->
  exists ch, provider_chain n f y ch /\
    forall ep, op_says y "token_endpoint" ep -> unruled ch "token_endpoint" ->
      exists jwt o form body, lo_post x ep form = Some body /\ lo_sign x (JObj o) = Some jwt /\
        assertion_claims (rp_id (lf_producer f)) ep (lo_now x) (rp_lifetime (lf_producer f)) o /\
        values_of "client_assertion" (read_query form) = [jwt] /\ values_of "code" (read_query form) = [code].
Proof.
  intros A S P ND G. destruct (exchange_ok _ _ _ _ _ _ _ _ _ _ _ _ ND G) as (op & jwt & o & form & body & R & SG & AC & PO & Q & _).
  destruct (resolved _ _ _ _ _ _ _ A R) as (ch & m & CT & CM & E). exists ch. split; [exact CT|].
  intros ep (o1 & EO & T) U. destruct (provider_metadata n f y c ch m o1 S P CT CM EO) as (o' & E' & RW & K). rewrite E' in E. injection E as ->.
  assert (X : op_str "TokenEndpoint" o' = ep) by (apply (said _ "token_endpoint"); [vm_compute; reflexivity|exact RW|apply K; [discriminate|exact U|exact T]]).
  rewrite X in AC, PO. exists jwt, o, form, body. split; [exact PO|]. split; [exact SG|]. split; [exact AC|]. split; [exact (Q "client_assertion")|exact (Q "code")].
Qed.

(** ** Logins succeed *)
Lemma filter_names {V} (m : smap V) : filter (fun kv => mem (fst kv) provider) m = filter (fun kv => String.eqb (fst kv) "openid_provider") m.
Proof. apply filter_ext. intros [k v]. cbn [fst]. unfold provider, mem. cbn [existsb]. now rewrite Bool.orb_false_r. Qed.
Lemma only_metadata y : pa_metadata (as_provider y) = nil_all_except (pa_metadata y) provider.
Proof. cbn [as_provider pa_metadata]. rewrite <- filter_names. reflexivity. Qed.
Lemma filter_read (p : string -> bool) m : filter (fun kv => p (fst kv)) (map_read m) = map_read (filter (fun kv => p (fst kv)) m).
Proof. unfold map_read. induction m as [|[k v] m IH]; [reflexivity|]. cbn [map filter fst snd]. destruct (p k); cbn [map fst snd]; now rewrite IH. Qed.
Lemma restricted_read m m' : metadata_read m m' -> metadata_read (nil_all_except m provider) (nil_all_except m' provider).
Proof.
  intros [A _ _ _ _ _ X]. constructor; try exact Logic.I.
  - exact A.
  - unfold nil_all_except. cbn [md_extra]. rewrite X. apply (filter_read (fun k => mem k provider)).
Qed.
Lemma keys_filter_in {V} (p : string * V -> bool) (m : smap V) k : In k (keys (filter p m)) -> In k (keys m).
Proof. unfold keys. rewrite !in_map_iff. intros (x & E & I). apply filter_In in I as [I _]. eauto. Qed.
Lemma keys_filter_nodup {V} (p : string * V -> bool) (m : smap V) : NoDup (keys m) -> NoDup (keys (filter p m)).
Proof.
  unfold keys. induction m as [|x m IH]; [constructor|]. cbn [map filter]. intros H. inversion H; subst. destruct (p x); [|auto]. cbn [map]. constructor; [|auto].
  intros I. apply (keys_filter_in p m) in I. contradiction.
Qed.
Lemma only_sound n y : sound_participant n y -> sound_participant n (as_provider y).
Proof.
  intros [A B C M L I O]. constructor; try assumption. destruct M as [M1 M2 M3 M4 M5 M6 [M7 M7'] M8].
  constructor; try (intros a Ha; discriminate Ha).
  - exact M1.
  - cbn [as_provider pa_metadata md_extra]. split; [now apply keys_filter_nodup|]. intros k Hk. apply M7'. now apply keys_filter_in in Hk.
  - cbn [as_provider pa_metadata md_extra]. rewrite Forall_forall in *. intros z Hz. apply filter_In in Hz as [Hz _]. now apply M8.
Qed.
Lemma only_describes y e m : describes y e -> st_metadata e = Some m -> describes (as_provider y) (with_metadata e (Some (nil_all_except m provider))).
Proof.
  intros [A B C _ E (m0 & EM & RM)] EM'. rewrite EM' in EM. injection EM as <-. pose proof (restricted_read _ _ RM) as R. rewrite <- only_metadata in R.
  constructor; try assumption.
  - unfold types_of. cbn [with_metadata st_metadata]. now apply types_read.
  - exists (nil_all_except m provider). split; [reflexivity|exact R].
Qed.
Lemma only_read y t marks extra e m : statement_read (configuration y t marks extra) e -> st_metadata e = Some m ->
  statement_read (configuration (as_provider y) t marks extra) (with_metadata e (Some (nil_all_except m provider))).
Proof.
  intros R EM. pose proof (sr_metadata _ _ R) as M. rewrite EM in M. cbn in M. apply restricted_read in M. rewrite <- only_metadata in M.
  destruct R. constructor; try assumption.
Qed.
Lemma login_chain n f y : vouched_provider n f y -> exists ch, provider_chain n f y ch.
Proof.
  intros (t & marks & extra & ss & fuel & cs & NI & S & P & NE & L & AP & R).
  destruct (published_read n [] y _ S P) as (e & G & RD & V). pose proof (configuration_describes n _ y _ e P RD) as D.
  destruct (de_metadata _ _ D) as (m & EM & _). pose proof (only_describes y e m D EM) as D'.
  destruct (line_path n _ [] (as_provider y) [] ss L (only_sound n y S) (with_metadata e (Some (nil_all_except m provider))) [] None D' V) as (hs & PU & SU & F);
    [constructor|discriminate|auto|].
  assert (DR : Forall2 statement_read (documents (configuration (as_provider y) t marks extra) ss) (chain_along (with_metadata e (Some (nil_all_except m provider))) hs))
    by (apply documents_read; [now apply only_read|exact F]).
  destruct (AP _ DR) as (md & CM). eexists. exists fuel, cs. split; [exact R|]. eapply path_returned_valid; [exact R| | |exact PU|exact SU|exact CM].
  - split; [exact NI|]. exists e, m. auto.
  - intros ->. inversion F. now subst.
Qed.
Lemma params_some add : forall acc, (forall k, lookup k acc <> Some (@None json)) ->
  forall k, lookup k (fold_left (fun m kv => insert (fst kv) (param (snd kv)) m) add acc) <> Some None.
Proof.
  induction add as [|[a v] add IH]; intros acc H; [exact H|]. cbn [fold_left fst snd]. apply IH. intros k. rewrite lookup_insert.
  destruct (String.eqb k a); [|apply H]. destruct v as [[|? [|]]|]; discriminate.
Qed.
Theorem login_succeeds e p x f h y n redirect state scope l ep : asks e p f y n -> vouched_provider n f y -> op_says y "authorization_endpoint" ep ->
  (forall ch, provider_chain n f y ch -> unruled ch "authorization_endpoint") ->
  lo_canon x (base_of ep) <> None -> lo_uuid x <> None -> (forall o, lo_sign x (JObj o) <> None) ->
  exists fuel url h', get_authorization_url fuel e p x f h (pa_id y) redirect state scope l = (Done (Ok url), h').
Proof.
  intros [D W] VP OS U CA UU SG. destruct (login_chain n f y VP) as (ch & CT).
  destruct (local_complete e p (Req (pa_id y) (anchor_ids (lf_anchors f)) provider) ch) as (fuel & md & LR); [cbn [rq_sub rq_anchors rq_types]; rewrite W; exact CT|].
  pose proof (local_sound _ _ _ _ _ LR) as (ch1 & CT1 & CM1). cbn [rq_sub rq_anchors rq_types] in CT1. rewrite W in CT1.
  destruct VP as (t & marks & extra & ss & f0 & cs & NI & S & P & _).
  destruct (provider_start n f y _ ch1 S P CT1) as (e1 & m1 & r & E1 & EM1 & _).
  assert (NN : md <> None) by (rewrite E1 in CM1; exact (config_metadata _ _ _ EM1 _ CM1)). destruct md as [md|]; [clear NN|contradiction].
  destruct OS as (o & EO & T). destruct (provider_metadata n f y _ ch1 md o S P CT1 CM1 EO) as (o' & E' & RW & K).
  assert (X : op_str "AuthorizationEndpoint" o' = ep) by (apply (said _ "authorization_endpoint"); [vm_compute; reflexivity|exact RW|apply K; [discriminate|now apply U|exact T]]).
  exists fuel. unfold get_authorization_url, resolve_op. change (["openid_provider"]) with provider. rewrite D. cbn [resolve_metadata]. rewrite LR. cbn [rbind]. rewrite E'.
  fold (authorization_map o' redirect state scope (read_values h l)).
  destruct (request_total x (lf_producer f) (h ++ [CAny (authorization_map o' redirect state scope (read_values h l))])%list (Some (List.length h))
              (authorization_map o' redirect state scope (read_values h l))) as (jwt & h1 & RT).
  - exists (List.length h). split; [reflexivity|]. apply nth_last.
  - apply authorization_nodup.
  - unfold authorization_map. rewrite !lookup_insert. discriminate.
  - intros k. unfold authorization_map. rewrite !lookup_insert.
    destruct (String.eqb k "scope"), (String.eqb k "response_type"), (String.eqb k "state"), (String.eqb k "redirect_uri"), (String.eqb k "aud"); try discriminate.
    apply params_some. discriminate.
  - exact UU.
  - exact SG.
  - rewrite RT, X. unfold url_parse. unfold base_of in CA. destruct (cut "#" ep) as [a b]. cbn [fst] in CA. destruct (cut "?" a) as [a1 a2]. cbn [fst] in CA.
    destruct (lo_canon x a1) as [bb|]; [|contradiction]. eauto.
Qed.

(** A line without policies. *)
Definition plain_claims (d : statement_payload) : Prop := st_policy (sp_claims d) = None /\ st_policy_crit (sp_claims d) = [].
Lemma top_plain n tas p x below ss c : line n tas p x below ss -> plain_claims c -> plain_claims (top_configuration c ss).
Proof. intros L. revert c. induction L as [|? ? ? ? ? ? ? ? ? ? ? ? PC ? ? ? ? L IH]; intros c0 P; cbn [top_configuration sp_configuration]; [exact P|]. apply IH. eapply publishes_plain; eauto. Qed.
Lemma plain_provider n tas y t marks extra ss ch : line n tas [] (as_provider y) [] ss -> plain_line ss ->
  Forall2 statement_read (documents (configuration (as_provider y) t marks extra) ss) ch -> exists m, chain_metadata ch = Ok m.
Proof.
  intros L PL F. assert (P0 : plain_claims (configuration (as_provider y) t marks extra)) by (split; reflexivity).
  assert (D : forall d, In d (documents (configuration (as_provider y) t marks extra) ss) -> plain_claims d).
  { unfold documents. intros d [<-|I]; [exact P0|]. apply in_app_or in I as [I|[<-|[]]].
    - apply in_map_iff in I as (s & <- & I). now apply PL.
    - eapply top_plain; eauto. }
  assert (S : forall s, In s ch -> st_policy s = None /\ st_policy_crit s = []).
  { clear -F D. induction F as [|d s ds ch R F IH]; intros x []; [|apply IH; [intros; apply D; now right|assumption]].
    subst. destruct (D d (or_introl eq_refl)) as [A B]. rewrite (sr_policy_crit _ _ R). split; [|exact B].
    pose proof (sr_policy _ _ R) as Q. rewrite A in Q. destruct (st_policy x); [contradiction|reflexivity]. }
  exists (Some (leaf_metadata ch)).
  assert (N : forall (f : policies -> list gpolicy), flat_map (fun s => match st_policy s with Some p => f p | None => [] end) ch = []).
  { intros f. clear -S. induction ch as [|s ch IH]; [reflexivity|]. cbn [flat_map]. rewrite (proj1 (S s (or_introl eq_refl))). apply IH. intros. apply S. now right. }
  apply chain_metadata_exact.
  - apply same_length in F. rewrite <- F. unfold documents. cbn [List.length]. rewrite app_length. cbn. lia.
  - split; [|split; [|split; [|reflexivity]]].
    + intros s o I J. rewrite (proj2 (S s I)) in J. destruct J.
    + intros t0 I. exists None. split; [|reflexivity]. unfold policies_of. now rewrite N.
    + intros k. exists None. split; [|reflexivity]. unfold additional_policies. now rewrite (N (fun p => match lookup k (mp_extra p) with Some q => [q] | None => [] end)).
Qed.
