(** Members of a federation that use this library resolve each other. *)
From Coq Require Import QArith Lia.
From Verif Require Import Base BaseFacts GoVal Policy Schema Metadata SpecMetadata Chain Resolver SpecResolver ResolverFacts ResolverLaws SpecChain SpecExact ExactFacts SpecTime
  Json TrustMark Refresher Leaf Config Jwt SpecJwt Statement Encode SpecEncode EncodeFacts EncodeLaws Federation SpecFederation.
From Verif Require Import SpecEncode GoVal.
Local Open Scope nat_scope.
Local Open Scope string_scope.

(** ** Documents are read *)
Lemma issued_read n s p jwt ks : issued n s p jwt -> signer_jwks (nw_crypto n) s = Ok (nw_keys n ks) -> payload_ok (nw_codec n) p ->
  exists st, ok_or_none (parse_statement (read_jwt (nw_crypto n)) (nw_codec n) jwt) = Some st /\ statement_read p st /\ w_verify (seen n) (st_jwt st) ks = true.
Proof.
  intros (m & S & P) K O. destruct (signed_read _ _ s p m jwt _ S P K O) as [(st & D & J & R) V]. exists st. rewrite D.
  split; [reflexivity|]. split; [exact R|]. cbn. unfold verify_raw. rewrite J, P, V. reflexivity.
Qed.
Lemma configuration_end x t marks extra : (0 < pa_lifetime x <= 9223372036)%Z ->
  st_exp (sp_claims (configuration x t marks extra)) = (t + pa_lifetime x * 1000000000)%Z.
Proof.
  intros L. unfold configuration, config_statement, config_payload, with_marks, new_entity. cbn [sp_claims st_exp fe_lifetime]. destruct (Z.leb_spec (pa_lifetime x) 0); [lia|].
  unfold second, Refresher.wrap64. rewrite (Z.mod_small (pa_lifetime x + 2 ^ 63)) by lia. rewrite Z.mod_small by lia. lia.
Qed.
Lemma configuration_ok n x t marks extra : sound_participant n x -> apart claim_names extra -> in_range t -> in_range (t + pa_lifetime x * 1000000000)%Z ->
  payload_ok (nw_codec n) (configuration x t marks extra).
Proof.
  intros [_ _ C M L I O] A R E. constructor; try (intros a Ha; discriminate Ha).
  - exact R.
  - rewrite configuration_end; assumption.
  - exact C.
  - intros a [= <-]. exact M.
  - exact I.
  - exact O.
  - exact A.
Qed.
Lemma published_read n p x c : sound_participant n x -> publishes n p x c ->
  exists e, w_config (seen n) p (pa_id x) = Some e /\ statement_read c e /\ w_verify (seen n) (st_jwt e) (pa_keys x) = true.
Proof.
  intros S (t & marks & extra & jwt & -> & A & R & E & G & I).
  destruct (issued_read n _ _ jwt _ I (so_keys _ _ S)) as (e & D & X & V); [now apply configuration_ok|].
  exists e. cbn. rewrite G. auto.
Qed.

(** ** What the configurations say *)
Lemma types_read m m' : metadata_read m m' -> guess_entity_types m' = guess_entity_types m.
Proof.
  intros [A B C D E F _]. unfold guess_entity_types, both in *.
  destruct (md_op m), (md_op m'); try contradiction; destruct (md_rp m), (md_rp m'); try contradiction; destruct (md_as m), (md_as m'); try contradiction;
  destruct (md_oc m), (md_oc m'); try contradiction; destruct (md_pr m), (md_pr m'); try contradiction; destruct (md_fe m), (md_fe m'); try contradiction; reflexivity.
Qed.
Lemma first_field m : map fst (em_fields m) = fe_schema -> em_get "FederationFetchEndpoint" m = em_tag "federation_fetch_endpoint" m.
Proof.
  unfold em_get, em_tag. destruct (em_fields m) as [|[r v] l]; [reflexivity|]. cbn [map fst]. unfold fe_schema. intros [= -> _]. reflexivity.
Qed.
Lemma address_read m m' s ep : metadata_read m m' -> st_metadata s = Some m' -> fetch_address m ep -> fetch_endpoint s = ep.
Proof.
  intros R M (fe & F & T & N). unfold fetch_endpoint. rewrite M. pose proof (mr_fe _ _ R) as B. rewrite F in B. destruct (md_fe m') as [fe'|]; [|contradiction].
  cbn in B. rewrite first_field by apply B. unfold em_tag in T. destruct (find _ (em_fields fe)) as [[r v]|] eqn:E; [|discriminate]. cbn in T. injection T as ->.
  apply find_some in E as [I E]. apply String.eqb_eq in E. cbn [fst] in E.
  destruct (er_values _ _ _ B r (VStr ep) I) as (v' & G & [-> | [(? & X & _)|(? & X & _)]]); try discriminate.
  - rewrite <- E. discriminate.
  - rewrite <- E in G. rewrite G. reflexivity.
Qed.

(** The statement [e] is the configuration of [z], as far as superiors care. *)
Record describes (z : participant) (e : stmt) : Prop := Describes {
  de_iss : st_iss e = pa_id z; de_sub : st_sub e = pa_id z; de_hints : st_hints e = pa_hints z; de_types : types_of e = guess_entity_types (pa_metadata z);
  de_keys : st_jwks e = Some (pa_keys z); de_metadata : exists m, st_metadata e = Some m /\ metadata_read (pa_metadata z) m }.
Lemma configuration_describes n p x c e : publishes n p x c -> statement_read c e -> describes x e.
Proof.
  intros (t & marks & extra & jwt & -> & _) R. pose proof (sr_metadata _ _ R) as M. cbn in M. destruct (st_metadata e) as [m|] eqn:E; [|contradiction].
  split; [now rewrite (sr_iss _ _ R)|now rewrite (sr_sub _ _ R)|now rewrite (sr_hints _ _ R)| |now rewrite (sr_jwks _ _ R)|eauto].
  unfold types_of. rewrite E. now apply types_read.
Qed.
Lemma read_valid d s now : statement_read d s -> in_force now (st_iat (sp_claims d)) (st_exp (sp_claims d)) -> valid_at now s.
Proof.
  intros R [A B]. pose proof (proj1 (sr_iat _ _ R)). pose proof (proj1 (sr_exp _ _ R)). split; right; lia.
Qed.
Lemma described_below n k below es : Forall2 describes below es -> allows n k below -> constraints_met (seen n) k es.
Proof.
  intros F [P X Y T]. assert (L : List.length es = List.length below) by (clear -F; induction F; cbn; congruence).
  assert (B : forall e, In e es -> exists z, In z below /\ describes z e).
  { clear -F. induction F as [|z e below es D F IH]; intros x [].
    - subst. exists z. split; [now left|exact D].
    - destruct (IH x) as (y & ? & ?); [assumption|]. exists y. split; [now right|assumption]. }
  constructor.
  - intros m E. rewrite L. auto.
  - intros nc e x E I J. destruct (B e I) as (z & Iz & D). rewrite (de_sub _ _ D). eauto.
  - intros nc l e E E' I. destruct (B e I) as (z & Iz & D). rewrite (de_sub _ _ D). eauto.
  - intros l e t E I J. destruct (B e I) as (z & Iz & D). rewrite (de_types _ _ D) in J. eauto.
Qed.

(** ** The path *)
Lemma signed_keys n e ks : ks <> [] -> w_verify (seen n) (st_jwt e) ks = true -> signed_by (seen n) e (Some ks).
Proof. intros N V. destruct ks as [|k l]; [contradiction|]. exists k, l. auto. Qed.
Theorem line_path n tas p x below ss : line n tas p x below ss -> sound_participant n x -> forall e es sub,
  describes x e -> w_verify (seen n) (st_jwt e) (pa_keys x) = true -> Forall2 describes below es ->
  (forall s, sub = Some s -> w_verify (seen n) (st_jwt s) (pa_keys x) = true) -> (sub = None -> ss <> []) ->
  exists hs, path_up (seen n) tas p e es hs /\ signed_up (seen n) tas e sub hs /\
    Forall2 (fun s h => statement_read (sp_configuration s) (h_ec h) /\ statement_read (sp_about s) (h_sub h)) ss hs.
Proof.
  induction 1 as [p x below T|p x below i y c d ss NA HH LO SY PC CC VV CD AL LI IH]; intros SX e es sub D V B S N.
  - exists []. destruct T as (pre & ta & post & E & I & U & K). split; [constructor; rewrite (de_iss _ _ D), <- I, E; unfold anchor_ids; rewrite map_app; apply in_or_app; right; now left|].
    split; [|constructor]. destruct sub as [s|]; [|now destruct (N eq_refl)].
    apply (su_anchor _ _ e s (Some (pa_keys x))).
    + exists pre, ta, post. split; [exact E|]. rewrite (de_iss _ _ D). split; [exact I|]. split; [exact U|].
      destruct K as [-> | ->]; [now rewrite (de_keys _ _ D)|reflexivity].
    + apply signed_keys; [apply SX|exact V].
    + apply signed_keys; [apply SX|now apply S].
  - destruct (published_read n (i :: p) y c SY PC) as (ec & GC & RC & VC). pose proof (configuration_describes n _ y c ec PC RC) as DY.
    destruct VV as (ep & jwt & FA & GF & IS & OK & Ei & Es & Ek).
    destruct (issued_read n _ d jwt _ IS (so_keys _ _ SY) OK) as (s & PS & RS & VS).
    destruct (de_metadata _ _ DY) as (m & EM & RM).
    destruct (IH SY ec (e :: es) (Some s) DY VC) as (hs & PU & SU & FF); [now constructor|intros s' [= <-]; exact VS|discriminate|].
    exists (Hop i ec s :: hs). split; [|split].
    + pose proof (sr_iss _ _ RS) as Xi. pose proof (sr_sub _ _ RS) as Xs. pose proof (sr_constraints _ _ RS) as Xc. rewrite Ei in Xi. rewrite Es in Xs.
      apply pu_hop.
      * now rewrite (de_iss _ _ D).
      * now rewrite (de_hints _ _ D), (de_iss _ _ DY).
      * intros z Iz. rewrite (de_iss _ _ DY).
        assert (exists z', In z' (x :: below) /\ describes z' z) as (z' & Iz' & Dz).
        { assert (F : Forall2 describes (x :: below) (e :: es)) by now constructor. clear -F Iz. revert Iz. induction F as [|a b l l' Hd F IHF]; intros []; [subst; exists a; split; [now left|assumption]|].
          destruct (IHF H) as (z' & ? & ?). exists z'. split; [now right|assumption]. }
        rewrite (de_sub _ _ Dz). now apply LO.
      * now rewrite (de_iss _ _ DY).
      * now rewrite (de_sub _ _ DY), (de_iss _ _ DY).
      * eapply read_valid; [exact RC|exact CC].
      * rewrite (address_read _ _ ec ep RM EM FA). destruct FA as (? & _ & _ & ?). assumption.
      * rewrite (address_read _ _ ec ep RM EM FA), (de_iss _ _ D), (de_iss _ _ DY). cbn. rewrite GF. exact PS.
      * now rewrite (de_iss _ _ DY).
      * now rewrite (de_iss _ _ D).
      * eapply read_valid; [exact RS|exact CD].
      * intros k Hk. rewrite Xc in Hk. apply (described_below n k (x :: below)); [now constructor|now apply AL].
      * exact PU.
    + assert (Kx : st_jwks s = Some (pa_keys x)) by now rewrite (sr_jwks _ _ RS). apply su_hop.
      * rewrite Kx. apply signed_keys; [apply SX|exact V].
      * intros s' ->. rewrite Kx. apply signed_keys; [apply SX|now apply S].
      * exact SU.
    + constructor; [split; assumption|exact FF].
Qed.

(** ** Resolution *)
Lemma chains_done U w tas start fuel : (forall p a ec, w_config w p a = Some ec -> incl (st_hints ec) U) -> List.length U < fuel ->
  (forall s, w_config w [] start = Some s -> st_metadata s <> None) -> exists cs, resolve_chains fuel w tas [] start = Done (Ok cs).
Proof.
  intros HU HF HM. apply resolve_chains_no_panic; [auto|]. destruct (finite_terminates U w tas [] start fuel HU HF) as (r & R). unfold resolve_valid in R.
  intros E. rewrite E in R. discriminate.
Qed.
Lemma documents_read c e ss hs : statement_read c e ->
  Forall2 (fun s h => statement_read (sp_configuration s) (h_ec h) /\ statement_read (sp_about s) (h_sub h)) ss hs ->
  Forall2 statement_read (documents c ss) (chain_along e hs).
Proof.
  intros R F. unfold documents, chain_along. constructor; [exact R|]. revert c e R.
  induction F as [|s h ss hs [A B] F IH]; intros c e R; cbn [map app top_configuration top].
  - constructor; [exact R|constructor].
  - constructor; [exact B|]. apply IH. exact A.
Qed.
Lemma line_found n tas x c ss : pa_id x <> "" -> sound_participant n x -> publishes n [] x c -> line n tas [] x [] ss -> ss <> [] ->
  exists e hs, start_config (seen n) [] (pa_id x) e /\ hs <> [] /\ path_up (seen n) tas [] e [] hs /\ signed_up (seen n) tas e None hs /\
    Forall2 statement_read (documents c ss) (chain_along e hs) /\ describes x e.
Proof.
  intros NI S P L NE. destruct (published_read n [] x c S P) as (e & G & R & V). pose proof (configuration_describes n _ x c e P R) as D.
  destruct (line_path n tas [] x [] ss L S e [] None D V) as (hs & PU & SU & F); [constructor|discriminate|auto|].
  exists e, hs. split; [|split; [|split; [exact PU|split; [exact SU|split; [now apply documents_read|exact D]]]]].
  - split; [exact NI|]. destruct (de_metadata _ _ D) as (m & E & _). exists e, m. split; [exact G|]. split; [exact E|]. rewrite <- E. now destruct e.
  - intros ->. inversion F. now subst.
Qed.
Theorem federation_resolves n tas x c ss U fuel : pa_id x <> "" -> sound_participant n x -> publishes n [] x c -> line n tas [] x [] ss -> ss <> [] ->
  (forall p a ec, w_config (seen n) p a = Some ec -> incl (st_hints ec) U) -> List.length U < fuel ->
  exists cs ch, resolve_chains fuel (seen n) tas [] (pa_id x) = Done (Ok cs) /\ In ch cs /\ Forall2 statement_read (documents c ss) ch.
Proof.
  intros NI S P L NE HU HF. destruct (line_found n tas x c ss NI S P L NE) as (e & hs & SC & NH & PU & SU & F & D).
  destruct (chains_done U (seen n) tas (pa_id x) fuel HU HF) as (cs & R).
  - destruct SC as (_ & s & m & C & M & _). intros s' C'. rewrite C in C'. injection C' as <-. rewrite M. discriminate.
  - exists cs, (chain_along e hs). split; [exact R|]. split; [|exact F]. eapply path_returned; eauto.
Qed.
Theorem federation_resolves_valid n tas x c ss fuel cs : pa_id x <> "" -> sound_participant n x -> publishes n [] x c -> line n tas [] x [] ss -> ss <> [] ->
  resolve_valid fuel (seen n) tas [] (pa_id x) = Done (Ok cs) ->
  exists ch, Forall2 statement_read (documents c ss) ch /\ ((exists m, chain_metadata ch = Ok m) -> In ch cs).
Proof.
  intros NI S P L NE R. destruct (line_found n tas x c ss NI S P L NE) as (e & hs & SC & NH & PU & SU & F & D).
  exists (chain_along e hs). split; [exact F|]. intros (m & M). eapply path_returned_valid; eauto.
Qed.

(** ** Metadata *)
Lemma same_length {A B} (R : A -> B -> Prop) l l' : Forall2 R l l' -> List.length l = List.length l'.
Proof. induction 1; cbn; congruence. Qed.
Lemma policies_read_in t ds ch : In t entity_types -> Forall2 statement_read ds ch -> policies_of (snd t) ch = policies_in (snd t) ds.
Proof.
  intros I F. unfold policies_of, policies_in. induction F as [|d s ds ch R F IH]; [reflexivity|]. cbn [flat_map]. rewrite IH. f_equal.
  pose proof (sr_policy _ _ R) as P. destruct (st_policy (sp_claims d)) as [q|], (st_policy s) as [q'|]; cbn in P; try contradiction; [|reflexivity].
  rewrite P. cbn in I. repeat (destruct I as [<-|I]; [reflexivity|]). destruct I.
Qed.
Lemma leaf_read x d ds ch n p : publishes n p x d -> Forall2 statement_read (d :: ds) ch -> metadata_read (pa_metadata x) (leaf_metadata ch).
Proof.
  intros P F. inversion F as [|? s ? ch' R F']; subst. destruct (configuration_describes n p x d s P R) as [_ _ _ _ _ (m & E & M)].
  cbn. now rewrite E.
Qed.
Theorem federation_metadata n p x c ss ch m : publishes n p x c -> Forall2 statement_read (documents c ss) ch -> chain_metadata ch = Ok (Some m) ->
  exists pub, metadata_read (pa_metadata x) pub /\ md_extra m = md_extra pub /\
  forall t, In t entity_types -> exists q, combine_policies (policies_in (snd t) (documents c ss)) = Ok q /\
    match q, fst t pub with
    | None, o => fst t m = o
    | Some _, None => fst t m = None
    | Some q, Some em => exists em', apply_policy em q = Ok em' /\ fst t m = Some em'
    end.
Proof.
  intros P F H. assert (L : 2 <= List.length ch).
  { apply same_length in F. rewrite <- F. unfold documents. cbn [List.length]. rewrite app_length. cbn. lia. }
  apply chain_metadata_exact in H as (_ & T & _ & E); [|exact L]. exists (leaf_metadata ch). split; [eapply leaf_read; [exact P|exact F]|]. split; [exact E|].
  intros t I. destruct (T t I) as (q & C & K). rewrite (policies_read_in t _ _ I F) in C. eauto.
Qed.

(** Without policies. *)
Lemma top_published n tas p x below ss c : publishes n p x c -> line n tas p x below ss -> exists p' y, publishes n p' y (top_configuration c ss).
Proof. intros P L. revert c P. induction L; intros c0 P; cbn [top_configuration sp_configuration]; eauto. Qed.
Lemma publishes_plain n p x c : publishes n p x c -> st_policy (sp_claims c) = None /\ st_policy_crit (sp_claims c) = [].
Proof. intros (t & marks & extra & jwt & -> & _). auto. Qed.
Theorem federation_plain n tas x c ss ch : publishes n [] x c -> line n tas [] x [] ss -> plain_line ss -> Forall2 statement_read (documents c ss) ch ->
  exists m, chain_metadata ch = Ok (Some m) /\ metadata_read (pa_metadata x) m.
Proof.
  intros P L PL F. assert (D : forall d, In d (documents c ss) -> st_policy (sp_claims d) = None /\ st_policy_crit (sp_claims d) = []).
  { unfold documents. intros d [<-|I]; [eapply publishes_plain; eauto|]. apply in_app_or in I as [I|[<-|[]]].
    - apply in_map_iff in I as (s & <- & I). now apply PL.
    - destruct (top_published n tas [] x [] ss c P L) as (p' & y & Q). eapply publishes_plain; eauto. }
  assert (S : forall s, In s ch -> st_policy s = None /\ st_policy_crit s = []).
  { clear -F D. induction F as [|d s ds ch R F IH]; intros x []; [|apply IH; [intros; apply D; now right|assumption]].
    subst. destruct (D d (or_introl eq_refl)) as [A B]. rewrite (sr_policy_crit _ _ R). split; [|exact B].
    pose proof (sr_policy _ _ R) as Q. rewrite A in Q. destruct (st_policy x); [contradiction|reflexivity]. }
  exists (leaf_metadata ch). split; [|eapply leaf_read; [exact P|exact F]].
  assert (N : forall (f : policies -> list gpolicy), flat_map (fun s => match st_policy s with Some p => f p | None => [] end) ch = []).
  { intros f. clear -S. induction ch as [|s ch IH]; [reflexivity|]. cbn [flat_map]. rewrite (proj1 (S s (or_introl eq_refl))). apply IH. intros. apply S. now right. }
  apply chain_metadata_exact.
  - apply same_length in F. rewrite <- F. unfold documents. cbn [List.length]. rewrite app_length. cbn. lia.
  - split; [|split; [|split; [|reflexivity]]].
    + intros s o I J. rewrite (proj2 (S s I)) in J. destruct J.
    + intros t I. exists None. split; [|reflexivity]. unfold policies_of. now rewrite N.
    + intros k. exists None. split; [|reflexivity]. unfold additional_policies. now rewrite (N (fun p => match lookup k (mp_extra p) with Some q => [q] | None => [] end)).
Qed.
