(** The members of a federation that uses this library are collected. *)
From Coq Require Import QArith Lia Permutation.
From Verif Require Import Base BaseFacts GoVal Policy Schema Metadata SpecMetadata Chain Resolver SpecResolver ResolverFacts ResolverLaws SpecChain ExactFacts SpecTime
  Json TrustMark SpecTrustMark TrustMarkFacts TrustMarkLaws Refresher Leaf Config Jwt SpecJwt Statement Encode SpecEncode EncodeFacts EncodeLaws
  Federation SpecFederation FederationFacts SpecFedMark FedMarkFacts Discovery SpecDiscovery EvalFacts DiscoveryFacts DiscoveryLaws
  SpecCarried CarriedFacts SpecFedCollect.
From Verif Require Import SpecEncode GoVal.
Local Open Scope nat_scope.
Local Open Scope string_scope.

(** ** Texts in metadata are read as they were written *)
Definition paired (name tag : string) (r : frow) : bool := Bool.eqb (String.eqb name (fr_name r)) (String.eqb tag (fr_tag r)).
Lemma get_tag name tag m : forallb (paired name tag) (map fst (em_fields m)) = true -> em_get name m = em_tag tag m.
Proof.
  unfold em_get, em_tag. induction (em_fields m) as [|[r v] l IH]; [reflexivity|]. cbn [map fst forallb find]. intros H.
  apply andb_prop in H as [P H]. apply Bool.eqb_prop in P. rewrite P. destruct (String.eqb tag (fr_tag r)); [reflexivity|]. now apply IH.
Qed.
Lemma no_tag tag m : forallb (fun r => negb (String.eqb tag (fr_tag r))) (map fst (em_fields m)) = true <-> em_tag tag m = None.
Proof.
  unfold em_tag. induction (em_fields m) as [|[r v] l IH]; [cbn; tauto|]. cbn [map fst forallb find].
  destruct (String.eqb tag (fr_tag r)); cbn [negb andb]; [split; discriminate|exact IH].
Qed.
Lemma text_read sch m m' name tag : tag <> "-" -> forallb (paired name tag) sch = true -> map fst (em_fields m) = sch -> entity_read sch m m' ->
  field_str name m' = field_str name m.
Proof.
  intros N P E R. unfold field_str. rewrite (get_tag name tag m) by now rewrite E. rewrite (get_tag name tag m') by now rewrite (er_rows _ _ _ R).
  destruct (em_tag tag m) as [v|] eqn:T.
  - unfold em_tag in T. destruct (find _ (em_fields m)) as [[r v0]|] eqn:F; [|discriminate]. injection T as <-.
    apply find_some in F as [I F]. apply String.eqb_eq in F. cbn [fst] in F. cbn [snd].
    destruct (er_values _ _ _ R r v0 I) as (v' & G & [-> | [(t & -> & ->)|(t & -> & ->)]]); [congruence| | |]; rewrite F, G; reflexivity.
  - apply no_tag in T. rewrite E in T. rewrite <- (er_rows _ _ _ R) in T. apply no_tag in T. now rewrite T.
Qed.

Definition name_tags : list (string * string) :=
  [("DisplayName", "display_name"); ("OrganizationName", "organization_name"); ("ClientName", "client_name"); ("ResourceName", "resource_name");
   ("FederationListEndpoint", "federation_list_endpoint")].
Lemma names_paired sch nt : In sch [op_schema; rp_schema; pr_schema; fe_schema] -> In nt name_tags -> forallb (paired (fst nt) (snd nt)) sch = true.
Proof.
  intros S N.
  assert (X : forallb (fun sch => forallb (fun nt => forallb (paired (fst nt) (snd nt)) sch) name_tags) [op_schema; rp_schema; pr_schema; fe_schema] = true) by (vm_compute; reflexivity).
  rewrite forallb_forall in X. specialize (X _ S). rewrite forallb_forall in X. exact (X _ N).
Qed.
Lemma names_read sch m m' name : In sch [op_schema; rp_schema; pr_schema; fe_schema] -> In name (map fst name_tags) -> map fst (em_fields m) = sch -> entity_read sch m m' ->
  field_str name m' = field_str name m.
Proof.
  intros S N E R. apply in_map_iff in N as ([n t] & <- & N). eapply (text_read sch m m' n t); auto; [|now apply (names_paired sch (n, t))].
  assert (X : forallb (fun nt => negb (String.eqb (snd nt) "-")) name_tags = true) by (vm_compute; reflexivity).
  rewrite forallb_forall in X. intros ->. specialize (X _ N). discriminate X.
Qed.

Definition schema_for (ty : string) : list frow :=
  if (String.eqb ty "openid_provider" || String.eqb ty "oauth_authorization_server")%bool then op_schema
  else if (String.eqb ty "openid_relying_party" || String.eqb ty "oauth_client")%bool then rp_schema
  else if String.eqb ty "oauth_resource" then pr_schema else fe_schema.
Lemma typed_read m m' ty x : metadata_ok m -> metadata_read m m' -> SpecDiscovery.has_type m ty -> typed_field m ty = Some x ->
  exists x' sch, SpecDiscovery.has_type m' ty /\ typed_field m' ty = Some x' /\ In sch [op_schema; rp_schema; pr_schema; fe_schema] /\
    map fst (em_fields x) = sch /\ entity_read sch x x'.
Proof.
  intros O R [I _] F. unfold SpecDiscovery.has_type. cbn [In] in I.
  repeat destruct I as [<-|I]; try contradiction; unfold typed_field in *; cbn in F |- *.
  - pose proof (mr_op _ _ R) as B. rewrite F in B. destruct (md_op m') as [x'|]; [|contradiction]. exists x', op_schema. split; [split; [tauto|discriminate]|]. split; [reflexivity|]. split; [cbn; tauto|]. split; [exact (eo_rows _ _ (mo_op _ O _ F))|exact B].
  - pose proof (mr_rp _ _ R) as B. rewrite F in B. destruct (md_rp m') as [x'|]; [|contradiction]. exists x', rp_schema. split; [split; [tauto|discriminate]|]. split; [reflexivity|]. split; [cbn; tauto|]. split; [exact (eo_rows _ _ (mo_rp _ O _ F))|exact B].
  - pose proof (mr_as _ _ R) as B. rewrite F in B. destruct (md_as m') as [x'|]; [|contradiction]. exists x', op_schema. split; [split; [tauto|discriminate]|]. split; [reflexivity|]. split; [cbn; tauto|]. split; [exact (eo_rows _ _ (mo_as _ O _ F))|exact B].
  - pose proof (mr_oc _ _ R) as B. rewrite F in B. destruct (md_oc m') as [x'|]; [|contradiction]. exists x', rp_schema. split; [split; [tauto|discriminate]|]. split; [reflexivity|]. split; [cbn; tauto|]. split; [exact (eo_rows _ _ (mo_oc _ O _ F))|exact B].
  - pose proof (mr_pr _ _ R) as B. rewrite F in B. destruct (md_pr m') as [x'|]; [|contradiction]. exists x', pr_schema. split; [split; [tauto|discriminate]|]. split; [reflexivity|]. split; [cbn; tauto|]. split; [exact (eo_rows _ _ (mo_pr _ O _ F))|exact B].
  - pose proof (mr_fe _ _ R) as B. rewrite F in B. destruct (md_fe m') as [x'|]; [|contradiction]. exists x', fe_schema. split; [split; [tauto|discriminate]|]. split; [reflexivity|]. split; [cbn; tauto|]. split; [exact (eo_rows _ _ (mo_fe _ O _ F))|exact B].
Qed.
Lemma shown_read m m' ty name : metadata_ok m -> metadata_read m m' -> shown_name m ty name -> shown_name m' ty name.
Proof.
  intros O R (x & T & F & N). destruct (typed_read m m' ty x O R T F) as (x' & sch & T' & F' & S & E & B). exists x'. split; [exact T'|]. split; [exact F'|].
  cbv zeta in *. rewrite (names_read sch x x' "DisplayName" S) by (auto; now left).
  assert (NI : In (if mem ty ["openid_relying_party"; "oauth_client"] then "ClientName" else if String.eqb ty "oauth_resource" then "ResourceName" else "OrganizationName") (map fst name_tags)).
  { destruct (mem ty ["openid_relying_party"; "oauth_client"]); [right; right; now left|]. destruct (String.eqb ty "oauth_resource"); [right; right; right; now left|right; now left]. }
  rewrite (names_read sch x x' _ S NI E B). exact N.
Qed.
Lemma list_address_read m m' s ep : metadata_ok m -> metadata_read m m' -> st_metadata s = Some m' -> list_address m ep -> list_endpoint s = ep.
Proof.
  intros O R M (fe & F & T & _). unfold list_endpoint. rewrite M. pose proof (mr_fe _ _ R) as B. rewrite F in B. destruct (md_fe m') as [fe'|]; [|contradiction].
  cbn in B. rewrite (names_read fe_schema fe fe' "FederationListEndpoint").
  - unfold field_str. rewrite (get_tag "FederationListEndpoint" "federation_list_endpoint").
    + rewrite T. reflexivity.
    + rewrite (eo_rows _ _ (mo_fe _ O fe F)). vm_compute. reflexivity.
  - right; right; right; now left.
  - right; right; right; right; now left.
  - apply (mo_fe _ O fe F).
  - exact B.
Qed.
Lemma type_read m m' t : metadata_read m m' -> SpecDiscovery.has_type m t -> SpecDiscovery.has_type m' t.
Proof. intros R H. apply in_guess. rewrite (types_read _ _ R). now apply in_guess. Qed.

(** ** The collector sees the members *)
Section Seen.
Context (ce : cenv) (net : list nat -> request -> Federation.network) (C : collecting ce net).

Lemma answered p x c : answers net p x c -> exists s m', te_config (ce_env ce) p (pa_id x) = Some s /\ statement_read c s /\
  st_metadata s = Some m' /\ metadata_ok (pa_metadata x) /\ metadata_read (pa_metadata x) m' /\ configures x s.
Proof.
  intros [SP PB]. destruct (published_read _ _ _ _ SP PB) as (s & W & R & _).
  destruct (configuration_describes _ _ _ _ _ PB R) as [_ _ _ _ _ (m' & EM & RM)].
  exists s, m'. rewrite (cl_config _ _ C). split; [exact W|]. split; [exact R|]. split; [exact EM|]. split; [apply (so_metadata _ _ SP)|]. split; [exact RM|].
  destruct PB as (t & marks & extra & jwt & -> & _). exists t, marks, extra. exact R.
Qed.
Lemma enlisted_serves a x : enlisted ce net a x -> serves net x.
Proof. intros H. destruct H; assumption. Qed.

Lemma enlists_listed y x : serves net y -> enlists ce y x -> net_lists_always ce (pa_id y) (pa_id x).
Proof.
  intros S (ep & A & L) p. destruct (S (1 :: p)) as (c & AN). destruct (answered _ _ _ AN) as (s & m' & W & _ & EM & O & RM & _).
  pose proof (list_address_read _ _ _ _ O RM EM A) as E. destruct A as (_ & _ & _ & NE).
  unfold listing_answer. rewrite W, E. destruct (String.eqb_spec ep ""); [contradiction|]. apply L.
Qed.
Lemma enlists_authority y x p : serves net y -> enlists ce y x -> net_authority ce p (pa_id y).
Proof.
  intros S (ep & A & L). destruct (S (2 :: p)) as (c & AN). destruct (answered _ _ _ AN) as (s & m' & W & _ & EM & O & RM & _).
  pose proof (list_address_read _ _ _ _ O RM EM A) as E. destruct A as (_ & _ & _ & NE). exists s. split; [exact W|congruence].
Qed.
Lemma enlisted_below a x : serves net a -> enlisted ce net a x ->
  below (net_lists_always ce) (fun b => forall p, net_authority ce p b) (pa_id a) (pa_id x).
Proof.
  intros S H. induction H as [x E _|y x H IH E _].
  - apply below_anchor. now apply enlists_listed.
  - pose proof (enlisted_serves _ _ H). apply below_sub with (pa_id y); [exact IH| |now apply enlists_listed].
    intros p. eapply enlists_authority; eauto.
Qed.

(** ** They pass the filters *)
Lemma genuine_verified a q typ jwt ta : configures a ta -> genuine ce net a q typ jwt ->
  exists fuel, verify_mark fuel (ce_env ce) q (Info typ jwt [] None) ta = Done (Ok tt).
Proof.
  intros CF (y & sub & dj & t & B & I & A & <-). eapply (federation_carried (ce_env ce) net q a y ta typ sub dj t); eauto. apply (cl_member _ _ C).
Qed.
Lemma first_found cfg ty jwt : first_of (st_marks cfg) ty jwt -> find_by_id ty (infos_of cfg) = Some (Info ty jwt [] None).
Proof.
  intros (l1 & l2 & E & N). unfold find_by_id, infos_of. rewrite E. clear E. induction l1 as [|[ty' j] l1 IH].
  - cbn. now rewrite String.eqb_refl.
  - cbn [map fst app] in *. cbn [find_info ti_type fst snd]. destruct (String.eqb_spec ty' ty) as [->|D]; [now destruct N; left|].
    apply IH. intros X. apply N. now right.
Qed.
Lemma marks_pass fuel a q cfg ta types : configures a ta -> forall i,
  (forall k ty, nth_error types k = Some ty -> exists jwt, first_of (st_marks cfg) ty jwt /\ genuine ce net a (i + k :: q) ty jwt) ->
  forall r, marks_ok fuel (ce_env ce) q i types (infos_of cfg) (Some ta) = Done r ->
  forall k ty, nth_error types k = Some ty ->
    exists jwt, first_of (st_marks cfg) ty jwt /\ verify_mark fuel (ce_env ce) (i + k :: q) (Info ty jwt [] None) ta = Done (Ok tt).
Proof.
  intros CF. induction types as [|ty0 types IH]; intros i H r R k ty N; [destruct k; discriminate|].
  destruct (H 0 ty0 eq_refl) as (jwt & F & G). cbn [marks_ok] in R. rewrite (first_found _ _ _ F) in R. rewrite Nat.add_0_r in G.
  destruct (genuine_verified a _ _ _ ta CF G) as (f' & V).
  destruct (verify_mark fuel (ce_env ce) (i :: q) (Info ty0 jwt [] None) ta) as [x|] eqn:V0; [|discriminate].
  pose proof (verify_mark_det _ _ _ _ _ _ _ _ (me_local _ _ (cl_member _ _ C)) V0 V) as ->.
  destruct k as [|k].
  - injection N as <-. exists jwt. rewrite Nat.add_0_r. auto.
  - replace (i + S k) with (S i + k) by lia. eapply IH; eauto. intros k' ty' N'. replace (S i + k') with (i + S k') by lia. now apply H.
Qed.

Lemma member_passes fuel rq w a x : serves net a -> pa_id a = cr_anchor rq -> SpecDiscovery.network fuel ce rq w -> suits ce net a rq x ->
  forall p, net_passes fuel ce rq p (pa_id x).
Proof.
  intros SA EA [_ NE] [T NM MK] p. destruct (MK p) as (c & AN & G). destruct (answered _ _ _ AN) as (s & m' & W & R & EM & O & RM & _).
  exists s, m'. split; [exact W|]. split; [exact EM|]. split; [|split].
  - intros l L. destruct (T l L) as (t & I & H). exists t. split; [exact I|eapply type_read; eauto].
  - intros Q. destruct (NM Q) as (ty & name & S & F). exists ty, name. split; [eapply shown_read; eauto|exact F].
  - intros i ty N. destruct (SA (at_ta p)) as (ca & AA). destruct (answered _ _ _ AA) as (ta & _ & WA & _ & _ & _ & _ & CF). rewrite EA in WA.
    specialize (NE p (pa_id x)). unfold entity_answer in NE. rewrite W, EM in NE. apply rbind_ok in NE as (r0 & NE & _). unfold evaluate in NE.
    apply rbind_ok in NE as (mk & NE & _). rewrite WA in NE.
    destruct (marks_pass fuel a (5 :: p) s ta (cr_marks rq) CF 0) with (2 := NE) (3 := N) as (jwt & F & V).
    + intros k ty' N'. destruct (G k ty' N') as (jwt & F & GG). exists jwt. split; [|exact GG]. now rewrite (sr_marks _ _ R).
    + exists (Info ty jwt [] None), ta. split; [|split; [exact WA|exact V]]. destruct F as (l1 & l2 & E & NI). exists l1, jwt, l2. auto.
Qed.

Theorem member_collected fuel rq w l a x : SpecDiscovery.network fuel ce rq w -> returns w (cr_anchor rq) l ->
  pa_id a = cr_anchor rq -> serves net a -> enlisted ce net a x -> suits ce net a rq x -> exists e, In e l /\ ce_id e = pa_id x.
Proof.
  intros N R EA SA EN SU. assert (I : In (pa_id x) (map ce_id l)).
  { eapply network_complete; eauto; [rewrite <- EA; now apply enlisted_below|eapply member_passes; eauto]. }
  apply in_map_iff in I as (e & E & I). eauto.
Qed.

(** ** What they carry *)
Lemma config_metadata s m c : st_metadata s = Some m -> forall r, chain_metadata (s :: r) = Ok c -> c <> None.
Proof.
  intros E r H. destruct r as [|s' r]; [cbn in H; congruence|]. cbn [chain_metadata] in H. destruct (unsupported_crit _); [|discriminate].
  apply bind_ok in H as (p & _ & H). apply bind_ok in H as (m' & _ & [= <-]). discriminate.
Qed.
Lemma chain_start w ids start c : chain_to w ids start [] c -> exists s r m, c = s :: r /\ st_metadata s = Some m.
Proof.
  intros (fuel & cs & H & Hc). pose proof (valid_returned _ _ _ _ _ _ _ H Hc) as R.
  apply returned_root in R. destruct R as (e & (_ & s & m & EC & EM & ->) & R).
  rewrite (start_config_none w s m EM) in R. exists s. destruct R as [[-> _]|(h & hs & _ & _ & ->)]; [exists [], m; auto|].
  unfold chain_along. eauto.
Qed.
Theorem member_chain fuel rq w l a x e : SpecDiscovery.network fuel ce rq w -> returns w (cr_anchor rq) l -> pa_id a = cr_anchor rq ->
  In e l -> ce_id e = pa_id x -> (forall q, SpecFedMark.below_anchor (net (4 :: q) (question rq (pa_id x))) a x) ->
  asked_for rq "trust_chain" \/ asked_for rq "metadata" -> exists q, carries_chain (net (4 :: q) (question rq (pa_id x))) rq e.
Proof.
  intros N R EA I EI BA Q. pose proof (me_local _ _ (cl_member _ _ C)) as D.
  destruct (collected_evaluated _ _ _ _ _ _ N R I) as (p & cfg & m & _ & _ & E). exists p.
  destruct (evaluated_local _ _ _ _ _ _ _ _ D E) as [H _]. specialize (H Q). rewrite (me_world _ _ (cl_member _ _ C)) in H. rewrite EI in *.
  assert (X : exists c, chain_to (seen (net (4 :: p) (question rq (pa_id x)))) [cr_anchor rq] (pa_id x) [] c).
  { destruct (BA p) as (c & ss & f & cs & NI & NA & S & P & L & AP & RV).
    assert (NE : ss <> []).
    { intros ->. inversion L as [? ? ? T|]; subst. destruct T as (pre & an & post & X & Y & _). destruct pre as [|? [|]]; try discriminate X. injection X as <-. cbn in Y. congruence. }
    destruct (line_found _ _ x c ss NI S P L NE) as (ec & hs & SC & NH & PU & SU & F & DS).
    assert (IN : In (chain_along ec hs) cs). { destruct (AP _ F) as (m0 & Em). eapply path_returned_valid; eauto. }
    exists (chain_along ec hs), f, cs. rewrite <- EA. auto. }
  destruct H as [(c & CT & OC1 & OC2)|[_ NO]]; [|destruct X as (c & X); now apply NO in X].
  exists c. rewrite EI. split; [exact CT|]. destruct (chain_start _ _ _ _ CT) as (s & r & m0 & -> & EM). split; [discriminate|]. split; [exact OC1|].
  intros A. specialize (OC2 A). pose proof (config_metadata _ _ _ EM _ OC2) as NN. destruct (ce_metadata e) as [m1|]; [|contradiction]. eauto.
Qed.
Theorem member_marks fuel rq w l a x e typ jwt : SpecDiscovery.network fuel ce rq w -> returns w (cr_anchor rq) l -> pa_id a = cr_anchor rq ->
  serves net a -> In e l -> ce_id e = pa_id x -> bears ce net a x typ jwt -> asked_for rq "trust_marks" ->
  exists t, In t (ce_marks e) /\ ti_type t = typ /\ ti_jwt t = jwt.
Proof.
  intros N R EA SA I EI BE A. pose proof (me_local _ _ (cl_member _ _ C)) as D.
  destruct (collected_evaluated _ _ _ _ _ _ N R I) as (p & cfg & m & W & _ & E). rewrite EI in *.
  destruct (BE p) as (c & k & AN & HK & G). destruct (answered _ _ _ AN) as (s & m' & W' & RC & _). rewrite W in W'. injection W' as <-.
  destruct (SA (at_ta p)) as (ca & AA). destruct (answered _ _ _ AA) as (ta & _ & WA & _ & _ & _ & _ & CF). rewrite EA in WA.
  destruct (evaluate_parts _ _ _ _ _ _ _ _ E) as (pl & HR & HM & _). cbv zeta in HM. apply asks_named in A.
  assert (NM : match pl with Some x => pl_marks x = [] | None => True end).
  { unfold resolved in HR. rewrite D in HR. destruct (asks rq "metadata" || asks rq "trust_chain")%bool; [|injection HR as <-; exact Logic.I].
    destruct (local_plain fuel (ce_env ce) (4 :: p) (Req (pa_id x) [cr_anchor rq] [])) as [[[pl0 c0]| |]|] eqn:L; cbn [rbind fst] in HR; try discriminate;
      injection HR as <-; [|exact Logic.I].
    apply local_plain_ok in L. destruct L as (cs & md & r & _ & _ & _ & ->). reflexivity. }
  rewrite WA, A in HM. assert (V : verified_marks fuel (ce_env ce) (6 :: p) (infos_of cfg) ta = Done (Ok (ce_marks e))).
  { destruct pl as [x0|]; [rewrite NM in HM|]; exact HM. }
  assert (HN : nth_error (infos_of cfg) k = Some (Info typ jwt [] None)).
  { unfold infos_of. rewrite (sr_marks _ _ RC). rewrite nth_error_map, HK. reflexivity. }
  destruct (verified_has _ _ _ _ _ _ _ _ _ V HN) as [(z & Z) Y]. cbn [Nat.add] in Z, Y.
  destruct (genuine_verified a _ _ _ ta CF G) as (f' & VV).
  change (verify_mark fuel (ce_env ce) (k :: 6 :: p) (Info typ jwt [] None) ta = Done z) in Z.
  pose proof (verify_mark_det _ _ _ _ _ _ _ _ D Z VV) as ->. destruct (Y Z) as (t' & IT & VT). exists t'. split; [exact IT|]. now injection VT.
Qed.
End Seen.
