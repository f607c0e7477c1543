(** Resolved metadata survives being signed and read again. *)
From Coq Require Import QArith Lia.
From Verif Require Import Base BaseFacts GoVal Policy Schema Metadata MetadataFacts SpecMetadata Chain SpecChain ChainFacts Resolver SpecResolver ResolverLaws SpecAuth AuthFacts.
From Verif Require Import FloatTime SpecTime Json SpecJson JsonFacts TrustMark TrustMarkFacts Leaf Config SpecConfig Refresher Jwt SpecJwt JwtFacts SpecDecode DecodeFacts.
From Verif Require Import Statement SpecStatement StatementFacts StatementLaws StatementChains Encode SpecEncode EncodeFacts EncodeLaws Respond SpecRespond RespondFacts SpecRemote TypedFacts.
From Verif Require Import GoVal.
Local Open Scope nat_scope.
Local Open Scope string_scope.

(** ** Policies keep types *)
Lemma parallel_rows ws p l l' : attributes_only p -> Forall2 (fun x y => apply_field ws p x = Ok y) l l' -> map fst l' = map fst l.
Proof.
  intros P. induction 1 as [|[r v] [r' v'] l l' H _ IH]; [reflexivity|]. cbn [map fst]. destruct (field_typed _ _ _ _ _ _ P H) as [-> _]. now rewrite IH.
Qed.
Lemma parallel_in ws p l l' r v' : attributes_only p -> Forall2 (fun x y => apply_field ws p x = Ok y) l l' -> In (r, v') l' ->
  exists v, In (r, v) l /\ (of_type (fr_ty r) v -> of_type (fr_ty r) v').
Proof.
  intros P. induction 1 as [|[r0 v0] [r0' v0'] l l' H _ IH]; intros I; [destruct I|]. destruct (field_typed _ _ _ _ _ _ P H) as (-> & T & _).
  destruct I as [[= -> ->]|I]; [exists v0; split; [now left|exact T]|]. destruct (IH I) as (v & Iv & Tv). exists v. split; [now right|exact Tv].
Qed.
Lemma parallel_extra ws p l l' : attributes_only p -> (forall r, In r (map fst l) -> fr_name r = "Extra" -> fr_tag r = "-") ->
  Forall2 (fun x y => apply_field ws p x = Ok y) l l' ->
  find (fun fv : frow * gval => String.eqb "Extra" (fr_name (fst fv))) l' = find (fun fv : frow * gval => String.eqb "Extra" (fr_name (fst fv))) l.
Proof.
  intros P N. induction 1 as [|[r v] [r' v'] l l' H _ IH]; [reflexivity|]. destruct (field_typed _ _ _ _ _ _ P H) as (-> & _ & X). cbn [find fst].
  destruct (String.eqb_spec "Extra" (fr_name r)) as [E|E].
  - rewrite X; [reflexivity|]. apply N; [now left|auto].
  - apply IH. intros r0 I. apply N. now right.
Qed.
Lemma extra_tag sch r : In sch entity_schemas -> In r sch -> fr_name r = "Extra" -> fr_tag r = "-".
Proof.
  assert (B : forallb (forallb (fun r => negb (String.eqb (fr_name r) "Extra") || String.eqb (fr_tag r) "-")%bool) entity_schemas = true) by (vm_compute; reflexivity).
  intros Hs Hr E. rewrite forallb_forall in B. apply B in Hs. rewrite forallb_forall in Hs. apply Hs in Hr. rewrite E in Hr. now apply String.eqb_eq.
Qed.
Lemma policy_entity sch m p m' : In sch entity_schemas -> entity_ok sch m -> attributes_only p -> apply_policy m p = Ok m' -> entity_ok sch m'.
Proof.
  intros Hs [R V X Q] P H. unfold apply_policy in H. apply bind_ok in H as (fs & H & [= <-]). apply map_res_Forall2 in H.
  assert (E : extra_value (EMeta fs (em_set m)) = extra_value m).
  { unfold extra_value, em_get. cbn [em_fields]. rewrite (parallel_extra _ _ _ _ P) with (2 := H); [reflexivity|].
    rewrite R. intros r Hr. now apply extra_tag with (sch := sch). }
  constructor; rewrite ?E; auto.
  - cbn [em_fields]. now rewrite (parallel_rows _ _ _ _ P H).
  - cbn [em_fields]. intros r v' I N. destruct (parallel_in _ _ _ _ r v' P H I) as (v & Iv & T). apply T. now apply V.
Qed.

Lemma insert_in {A} k (v : A) m k' v' : In (k', v') (insert k v m) -> (k' = k /\ v' = v) \/ In (k', v') m.
Proof.
  induction m as [|[a b] m IH]; cbn [insert]; intros H.
  - destruct H as [[= -> ->]|[]]. auto.
  - destruct (String.eqb k a); destruct H as [[= -> ->]|H]; auto; [right; now right|right; now left|]. destruct (IH H); auto. right. now right.
Qed.
Lemma merge_rest_in {A} (b : smap A) : forall out k v, In (k, v) (merge_rest b out) -> In (k, v) out \/ In (k, v) b.
Proof.
  induction b as [|[a x] b IH]; intros out k v H; cbn [merge_rest] in H; [now left|].
  destruct (has a out); apply IH in H as [H|H]; auto; [right; now right| |right; now right]. apply insert_in in H as [[-> ->]|H]; auto. right. now left.
Qed.
Lemma merge_loop_operands b : operands_ok b -> forall a out r, operands_ok a -> operands_ok out -> merge_loop a b out = Ok (Some r) -> operands_ok r.
Proof.
  intros B. induction a as [|[o av] a IH]; intros out r A O H; cbn [merge_loop] in H; [injection H as <-; exact O|].
  assert (A' : operands_ok a) by (intros k v I; apply (A k v); now right).
  assert (Ao : operand av) by (apply (A o); now left).
  destruct (lookup o b) as [bv|] eqn:L.
  - destruct (operator_of o) as [o'|]; [|discriminate H]. apply bind_ok in H as (c & Hc & H). apply (IH (insert o c out) r); auto. intros k v I. apply insert_in in I as [[-> ->]|I]; [|eauto].
    apply (merge_op_operand o' av bv); auto. apply (B o). now apply lookup_In.
  - apply (IH (insert o av out) r); auto. intros k v I. apply insert_in in I as [[-> ->]|I]; eauto.
Qed.
Lemma merge_entries_operands a b r : operands_ok a -> operands_ok b -> merge_entries a b = Ok r -> operands_ok r.
Proof.
  intros A B H. unfold merge_entries in H. apply bind_ok in H as ([out|] & H1 & [= <-]); [|intros k v []].
  assert (O : operands_ok out) by (apply (merge_loop_operands b B a [] out); auto; intros k v []). intros k v I. apply merge_rest_in in I as [I|I]; eauto.
Qed.
Lemma combine_loop_ok sub : attributes_only sub -> forall parent out r, attributes_only parent -> attributes_only out -> combine_loop parent sub out = Ok r -> attributes_only r.
Proof.
  intros S. induction parent as [|[k pv] parent IH]; intros out r P O H; cbn [combine_loop] in H; [injection H as <-; exact O|].
  assert (P' : attributes_only parent) by (intros k' e I; apply (P k' e); now right).
  destruct (P k pv (or_introl eq_refl)) as [N A].
  destruct (lookup k sub) as [sv|] eqn:L.
  - apply bind_ok in H as (c & Hc & H). apply (IH (insert k c out) r); auto. intros k' e I. apply insert_in in I as [[-> ->]|I]; [|eauto]. split; [exact N|].
    apply (merge_entries_operands pv sv); auto. apply lookup_In in L. apply (S _ _ L).
  - apply (IH (insert k pv out) r); auto. intros k' e I. apply insert_in in I as [[-> ->]|I]; eauto.
Qed.
Lemma combine2_ok p s o : attributes_only (pol p) -> attributes_only (pol s) -> combine2 p s = Ok o -> attributes_only (pol o).
Proof.
  intros P S H. unfold combine2 in H. destruct (pol s) as [|x ps] eqn:Es; [injection H as <-; exact P|]. destruct (pol p) as [|y pp] eqn:Ep; [injection H as <-; now rewrite Es|].
  rewrite <- Es, <- Ep in *. apply bind_ok in H as (out & H1 & H). apply bind_ok in H as ([] & _ & [= <-]). cbn [pol].
  pose proof (combine_loop_ok _ S _ [] _ P ltac:(intros k e []) H1) as O. intros k e I. apply merge_rest_in in I as [I|I]; eauto.
Qed.
Lemma combine_fold_ok ps : forall out o, attributes_only (pol out) -> (forall p, In p ps -> attributes_only (pol p)) -> combine_fold out ps = Ok o -> attributes_only (pol o).
Proof.
  induction ps as [|p ps IH]; intros out o A F H; cbn [combine_fold] in H; [injection H as <-; exact A|]. apply bind_ok in H as (out' & H1 & H2).
  apply (IH out' o); auto; [|intros q I; apply F; now right]. apply (combine2_ok out p); auto. apply F. now left.
Qed.
Lemma combine_ok ps o : (forall p, In p ps -> attributes_only (pol p)) -> combine_policies ps = Ok o -> attributes_only (pol o).
Proof.
  intros F H. destruct ps as [|p ps]; cbn [combine_policies] in H; [injection H as <-; intros k e []|]. apply bind_ok in H as ([] & _ & H).
  apply (combine_fold_ok ps p); auto; [apply F; now left|intros q I; apply F; now right].
Qed.
Lemma read_attributes p : read_policy p -> attributes_only (pol p).
Proof. intros R k e I. destruct (R k e I) as [N O]. split; [exact N|]. intros o v J. apply operand_json. eauto. Qed.

Lemma type_kept t sch c md : In t entity_types -> In sch entity_schemas -> (forall s, In s c -> read_policies s) -> type_result t c md ->
  given (entity_ok sch) (fst t (leaf_metadata c)) -> given (entity_ok sch) (fst t md).
Proof.
  intros Ht Hs R (p & C & K) G.
  assert (A : attributes_only (pol p)).
  { apply (combine_ok (policies_of (snd t) c)); [|exact C]. intros q Iq. unfold policies_of in Iq. apply in_flat_map in Iq as (s & Is & Iq).
    destruct (st_policy s) as [ps|] eqn:E; [|destruct Iq]. destruct Iq as [<-|[]]. apply read_attributes. exact (R s Is t ps Ht E). }
  destruct p as [q|]; [|now rewrite K]. destruct (fst t (leaf_metadata c)) as [em|]; [|rewrite K; intros a Ha; discriminate Ha].
  destruct K as (em' & H & ->). intros a [= <-]. apply (policy_entity sch em q em' Hs); auto.
Qed.
Lemma leaf_ok c : given metadata_ok (match c with s :: _ => st_metadata s | [] => None end) -> metadata_ok (leaf_metadata c).
Proof.
  intros G. destruct c as [|s c]; cbn [leaf_metadata].
  2: destruct (st_metadata s) as [m|]; [now apply G|].
  all: constructor; cbn [empty_metadata md_op md_rp md_as md_oc md_pr md_fe md_extra]; try (intros a Ha; discriminate Ha); try constructor; intros; try constructor; contradiction.
Qed.
Theorem chain_kept c md : (forall s, In s c -> read_policies s) -> given metadata_ok (match c with s :: _ => st_metadata s | [] => None end) ->
  chain_metadata c = Ok md -> given metadata_ok md.
Proof.
  intros R G H. destruct c as [|s [|s' c]].
  - discriminate H.
  - injection H as <-. exact G.
  - destruct (chain_metadata_types (s :: s' :: c) md ltac:(cbn; lia) H) as (m & -> & T & X). intros a [= <-].
    destruct (leaf_ok (s :: s' :: c) G) as [G1 G2 G3 G4 G5 G6 G7 G8].
    assert (K : forall t sch, In t entity_types -> In sch entity_schemas -> given (entity_ok sch) (fst t (leaf_metadata (s :: s' :: c))) -> given (entity_ok sch) (fst t m)).
    { intros t sch Ht Hs Gt. apply (type_kept t sch (s :: s' :: c) m Ht Hs R); auto. }
    constructor; rewrite ?X; auto.
    + apply (K (md_op, mp_op)); auto; cbn; tauto.
    + apply (K (md_rp, mp_rp)); auto; cbn; tauto.
    + apply (K (md_as, mp_as)); auto; cbn; tauto.
    + apply (K (md_oc, mp_oc)); auto; cbn; tauto.
    + apply (K (md_pr, mp_pr)); auto; cbn; tauto.
    + apply (K (md_fe, mp_fe)); auto; cbn; tauto.
Qed.

(** ** Decoded values have their types *)
Lemma same_any : forall v x, same_value x v -> of_type TAny v.
Proof.
  fix IH 1. intros v x S. destruct v as [|b|z|z|s|q|t n kv|t n l]; try (inversion S; split; [constructor|reflexivity]; fail); try (inversion S; fail).
  - inversion S as [| | | | |o kv' N H1 H2 E1 E2]; subst. 
    assert (K : forall k w, In (k, w) kv -> of_type TAny w).
    { assert (Y : forall k w, In (k, w) kv -> exists y, same_value y w).
      { intros k w I. destruct (lookup k (rev o)) as [y|] eqn:L.
        - destruct (H1 k y L) as (v & Lv & Sv). apply In_lookup in I; [|exact N]. rewrite I in Lv. injection Lv as <-. eauto.
        - apply H2 in L. apply In_lookup in I; [|exact N]. congruence. }
      clear - IH Y. induction kv as [|[k' w'] kv IHl]; intros k w I; [destruct I|]. destruct I as [E|I].
      - destruct (Y k' w' (or_introl eq_refl)) as [y Sy]. pose proof (IH w' y Sy) as A. injection E as _ <-. exact A.
      - apply (IHl (fun k w J => Y k w (or_intror J)) k w I). }
    split.
    + constructor; [exact N|]. apply Forall_forall. intros [k w] I. apply (K k w I).
    + cbn [as_read]. f_equal. rewrite <- (map_id kv) at 2. apply map_ext_in. intros [k w] I. cbn [fst snd]. destruct (K k w I) as [_ ->]. reflexivity.
  - inversion S as [| | | |xs vs F E1 E2|]; subst.
    assert (K : forall w, In w l -> of_type TAny w).
    { clear - IH F. revert xs F. induction l as [|w' l IHl]; intros xs F w I; [destruct I|]. inversion F as [|x y xs' l' Sx F' E]; subst. destruct I as [E|I].
      - pose proof (IH w' x Sx) as A. now rewrite <- E.
      - exact (IHl xs' F' w I). }
    split.
    + constructor. apply Forall_forall. intros w I. apply (K w I).
    + cbn [as_read]. f_equal. rewrite <- (map_id l) at 2. apply map_ext_in. intros w I. apply (K w I).
Qed.
Lemma attribute_typed t : forall x v, attribute t x v -> of_type t v.
Proof.
  induction t as [| | | | | |t IH|t IH]; intros x v H.
  - exact (same_any v x H).
  - destruct H as [(b & _ & ->)|(_ & ->)]; cbn; eauto.
  - destruct H as [(q & z & _ & _ & ->)|(_ & ->)]; cbn; eauto.
  - destruct H as [(q & z & _ & _ & ->)|(_ & ->)]; cbn; eauto.
  - destruct H as [(s & _ & ->)|(_ & ->)]; cbn; eauto.
  - destruct H as [(o & w & -> & S & ->)|(_ & ->)]; [|now left]. right. pose proof (same_any w _ S) as A. inversion S; subst. destruct A. eauto.
  - destruct H as [(o & kv & -> & -> & N & F)|(_ & ->)]; [|now left]. right. exists kv. split; [reflexivity|]. split; [exact N|]. intros k w I.
    specialize (F k). apply In_lookup in I; [|exact N]. destruct (claim k (JObj o)) as [y|]; [|congruence]. destruct F as (a & La & Ha). rewrite I in La. injection La as <-. eauto.
  - destruct H as [(xs & vs & -> & -> & F)|(_ & ->)]; [|now left]. right. exists vs. split; [reflexivity|]. intros w I.
    clear - IH F I. induction F as [|x y xs ys Hx F IHf]; [destruct I|]. destruct I as [<-|I]; eauto.
Qed.
Lemma says_stated {A} (means : json -> A -> Prop) j n (a : option A) : says (optional means) None j n a -> forall b, a = Some b -> means (stated n j) b.
Proof.
  intros [_ S] b ->. unfold stated. rewrite last_hd. destruct (rev (members n j)) as [|x l]; [discriminate S|]. cbn [hd_error]. apply S.
Qed.
Lemma entity_tidy sch x m : In sch entity_schemas -> entity_says sch x m -> clear (map fr_tag sch) x -> claim "-" x = None -> entity_ok sch m.
Proof.
  intros Hs [_ R A N X] C D. constructor; [exact R| | |].
  - intros r v I Nt. assert (Hr : In r sch) by (rewrite <- R; apply in_map_iff; exists (r, v); auto). destruct (A r Hr Nt) as (v' & E & At).
    unfold em_tag in E. rewrite (find_tag (em_fields m) r v) in E; [|rewrite R; now apply tags_nodup|exact I]. injection E as ->. exact (attribute_typed _ _ _ At).
  - split; [exact N|]. intros k I. destruct (keys_lookup k _ I) as [v L]. specialize (X k). destruct (mem k (map fr_tag sch)) eqn:M.
    + rewrite X in L; [discriminate L|]. destruct (String.eqb_spec k "-") as [-> | Nk]; auto.
    + destruct (claim k x) as [y|] eqn:E; [|rewrite X in L; [discriminate L|auto]]. destruct (C k ltac:(congruence)) as [J|J]; [|exact J]. apply mem_nIn in M. contradiction.
  - apply Forall_forall. intros [k v] I. specialize (X k). apply In_lookup in I; [|exact N]. destruct (if mem k (map fr_tag sch) then None else claim k x) as [y|] eqn:E.
    + destruct X as (v' & L & S). rewrite I in L. injection L as <-. apply (same_any v y S).
    + destruct (String.eqb_spec k "-") as [-> | Nk]; rewrite X in I; auto; discriminate I.
Qed.
Theorem metadata_tidy x m : metadata_says x m -> tidy_metadata x -> metadata_ok m.
Proof.
  intros [O S1 S2 S3 S4 S5 S6 N X] [C T].
  assert (K : forall t sch (a : option emeta), In (t, sch) schema_of_type -> In sch entity_schemas -> says (optional (entity_says sch)) None x t a -> given (entity_ok sch) a).
  { intros t sch a I Hs S b E. destruct (T t sch I). apply (entity_tidy sch (stated t x)); auto. exact (says_stated _ _ _ _ S b E). }
  constructor; try (eapply K; [|cbn; tauto|eassumption]; cbn; tauto).
  - split; [exact N|]. intros k I. destruct (keys_lookup k _ I) as [v L]. specialize (X k). change entity_type_names with type_names in X. destruct (mem k type_names) eqn:M; [congruence|].
    destruct (claim k x) as [y|] eqn:E; [|congruence]. destruct (C k ltac:(congruence)) as [J|J]; [|exact J]. apply mem_nIn in M. contradiction.
  - apply Forall_forall. intros [k v] I. specialize (X k). apply In_lookup in I; [|exact N]. destruct (if mem k entity_type_names then None else claim k x) as [y|] eqn:E; [|congruence].
    destruct X as (v' & L & S). rewrite I in L. injection L as <-. apply (same_any v y S).
Qed.
Lemma policy_tidy x p : policy_means x p -> claim "-" x = None -> read_policy p.
Proof.
  intros M D k e I. destruct p as [p|]; [|destruct I]. destruct M as [_ (O & N & _ & F)]. specialize (F k). cbn [pol] in I. apply In_lookup in I; [|exact N].
  destruct (claim k x) as [y|] eqn:E; [|congruence]. split; [congruence|]. destruct F as (a & La & (_ & Ne & Fe)). rewrite I in La. injection La as <-.
  intros o v J. specialize (Fe o). apply In_lookup in J; [|exact Ne]. destruct (claim o y) as [z|]; [|congruence]. destruct Fe as (v' & Lv & S). rewrite J in Lv. injection Lv as <-. exact (same_any v z S).
Qed.
Lemma says_policy j n p : says policy_means None j n p -> claim "-" (stated n j) = None -> read_policy p.
Proof.
  intros [_ S] D. unfold stated in D. rewrite last_hd in D. destruct (rev (members n j)) as [|x l]; [subst p; intros k e []|]. exact (policy_tidy x p S D).
Qed.
Theorem policies_tidy x s p : policies_says x p -> tidy_policies x -> st_policy s = Some p -> read_policies s.
Proof.
  intros [O _ S1 S2 S3 S4 S5 S6 _] T E t p' Ht E'. rewrite E in E'. injection E' as <-.
  cbn [entity_types In] in Ht. destruct Ht as [<-|[<-|[<-|[<-|[<-|[<-|[]]]]]]]; cbn [snd]; eapply says_policy; try eassumption; apply T; cbn; tauto.
Qed.
Theorem statement_tidy kc j s : statement_says kc j s -> tidy j -> given metadata_ok (st_metadata s) /\ read_policies s.
Proof.
  intros S (_ & Tm & Tp). split.
  - intros m E. apply (metadata_tidy (stated "metadata" j)); [|exact Tm]. exact (says_stated _ _ _ _ (ss_metadata _ _ _ S) m E).
  - intros t p Ht E. refine (policies_tidy (stated "metadata_policy" j) s p _ Tp E t p Ht E). exact (says_stated _ _ _ _ (ss_policy _ _ _ S) p E).
Qed.

(** ** Chains of tidy documents *)
Lemma all_except_ok m types : metadata_ok m -> metadata_ok (nil_all_except m types).
Proof.
  intros [G1 G2 G3 G4 G5 G6 [N X] Q].
  assert (K : forall t sch (a : option emeta), given (entity_ok sch) a -> given (entity_ok sch) (keep types t a)).
  { intros t sch a G b. unfold keep. destruct (mem t types); [apply G|discriminate]. }
  constructor; cbn [nil_all_except md_op md_rp md_as md_oc md_pr md_fe md_extra]; auto.
  - split.
    + apply (keys_filter (fun kv : string * gval => mem (fst kv) types)). exact N.
    + intros k I. apply X. unfold keys in *. apply in_map_iff in I as (kv & <- & I). apply filter_In in I as [I _]. now apply in_map.
  - rewrite Forall_forall in *. intros kv I. apply filter_In in I as [I _]. auto.
Qed.
Lemma served parse kc get fetch now verify host c tas types start :
  let w := world_of parse kc get fetch now verify host in
  returned w tas types start c ->
  (forall x, In x c -> exists s, parse_statement parse kc (st_jwt x) = Ok s /\ st_policy x = st_policy s) /\
  (exists s m, parse_statement parse kc (st_jwt s) = Ok s /\ st_metadata s = Some m /\
     match c with
     | e :: _ => st_jwt e = st_jwt s /\ st_metadata e = Some (match types with [] => m | _ => nil_all_except m types end)
     | [] => False
     end).
Proof.
  intros w R. assert (B : forall o s, match o with Some b => ok_or_none (parse_statement parse kc b) | None => None end = Some s ->
    parse_statement parse kc (st_jwt s) = Ok s).
  { intros [b|] s E; [|discriminate]. destruct (parse_statement parse kc b) as [s'| |] eqn:D; try discriminate. injection E as ->.
    destruct (parsed_says _ _ _ _ D) as (j & _ & -> & _). exact D. }
  destruct (returned_root _ _ _ _ _ R) as (e & (_ & s & m & EC & EM & Ee) & RC). apply B in EC.
  assert (He : exists s, parse_statement parse kc (st_jwt e) = Ok s /\ st_policy e = st_policy s).
  { exists s. rewrite Ee. cbn [with_metadata st_jwt st_policy]. auto. }
  assert (Hm : st_jwt e = st_jwt s /\ st_metadata e = Some (match types with [] => m | _ => nil_all_except m types end)) by (rewrite Ee; split; reflexivity).
  destruct RC as [[-> _]|(h & hs & P & _ & ->)].
  - split; [|eauto]. intros x [<-|[]]. exact He.
  - split; [|eauto 6]. intros x I. unfold chain_along in I. destruct I as [<-|I]; [exact He|]. destruct (path_served _ _ _ _ _ _ P) as [F [q T]]; [discriminate|].
    apply in_app_iff in I as [I|[<-|[]]].
    + destruct (F _ I) as (p & ep & sub & iss & W). exists x. split; [exact (B _ _ W)|reflexivity].
    + exists (top e (h :: hs)). split; [exact (B _ _ T)|reflexivity].
Qed.
Theorem resolved_tidy parse kc get fetch now verify host c tas types start md :
  let w := world_of parse kc get fetch now verify host in
  returned w tas types start c -> (forall s typ j, In s c -> parse (st_jwt s) = Some (typ, j) -> tidy j) ->
  chain_metadata c = Ok md -> given metadata_ok md.
Proof.
  intros w R T H. destruct (served _ _ _ _ _ _ _ _ _ _ _ R) as [F (s & m & D & M & L)]. apply (chain_kept c md); auto.
  - intros x I. destruct (F x I) as (s' & D' & E). destruct (parsed_says _ _ _ _ D') as (j & Pj & _ & S). pose proof (T x _ j I Pj) as Tj.
    destruct (statement_tidy kc j s' (S (proj1 Tj)) Tj) as [_ Rp]. intros t p Ht Ep. rewrite E in Ep. exact (Rp t p Ht Ep).
  - destruct c as [|e c]; [destruct L|]. destruct L as [Ej Em]. rewrite Em. intros a [= <-]. destruct (parsed_says _ _ _ _ D) as (j & Pj & _ & S).
    assert (Tj : tidy j) by (apply (T e "entity-statement+jwt" j); [now left|now rewrite Ej]). destruct (statement_tidy kc j s (S (proj1 Tj)) Tj) as [Mo _].
    destruct types; [now apply Mo|apply all_except_ok; now apply Mo].
Qed.

Lemma marks_extra keys e p : forall ts i ta r, verified_federation keys e p i ts ta = Done (Ok r) ->
  (forall t, In t ts -> ti_extra t = []) -> forall t, In t r -> ti_extra t = [].
Proof.
  induction ts as [|t ts IH]; intros i ta r H F; cbn [verified_federation] in H; [injection H as <-; intros t []|].
  assert (F' : forall t, In t ts -> ti_extra t = []) by (intros x I; apply F; now right).
  destruct (info_verify_federation keys e (i :: p) t ta) as [[[u| |]|] t'] eqn:E; try discriminate H; [|eauto].
  destruct (verified_federation keys e p (S i) ts ta) as [[r'| |]|] eqn:V; try discriminate H. injection H as <-.
  intros x [<-|I]; [|exact (IH _ _ _ V F' x I)]. unfold info_verify_federation in E. unfold info_mark in E.
  pose proof (F t (or_introl eq_refl)) as X.
  destruct (ti_mark t) as [mk|]; [destruct (mk_msg mk); [injection E as _ <-; exact X|]|];
    (destruct (parse_mark e (ti_jwt t)) as [mk'| |]; cbn [bind] in E; try discriminate E; injection E as _ <-; exact X).
Qed.
Theorem remote_same parse kc get fetch now verify host keys fuel e0 p0 rq0 pl cx jws s iss sub iat exp aud extra m jwt e p ep rq :
  te_world e0 p0 rq0 = world_of parse kc get fetch now verify host ->
  local_payload keys fuel e0 p0 rq0 = Done (Ok pl) ->
  (forall t, In t (pl_chain pl) -> jws t = true /\ forall typ j, parse t = Some (typ, j) -> tidy j) ->
  apart response_claims extra ->
  sign_response cx s (Response iss sub iat exp aud pl extra) = Ok m -> cx_parse cx jwt = Some m -> reads_with cx jws e -> te_remote e p ep rq = ABody jwt ->
  exists pl', remote_payload e p ep rq = Ok pl' /\ response_read pl pl'.
Proof.
  intros W L T X S P Rd A. unfold local_payload in L. apply rbind_ok in L as ([pl0 c] & L0 & L). cbn [fst snd] in L.
  destruct c as [|leaf c]; [discriminate L|]. apply rbind_ok in L as (ms & V & [= <-]). apply local_plain_ok in L0 as (cs & md & r & RV & ES & EM & ->).
  cbn [pl_metadata pl_chain] in *.
  assert (K : signer_jwks cx s = Ok (match signer_jwks cx s with Ok ks => ks | _ => [] end)).
  { apply typed_ok in S as (key & j & Ek & _). unfold signer_jwks. now rewrite Ek. }
  destruct (answer_read cx jws s (Response iss sub iat exp aud (Payload md ms (messages (leaf :: c))) extra) m jwt _ e p ep rq S P K) as [(pl' & D & Q) _]; auto.
  2: exists pl'; auto.
  constructor; cbn [rp_payload pl_metadata pl_marks pl_chain rp_extra]; auto.
  - apply (resolved_tidy parse kc get fetch now verify host (leaf :: c) (plain_anchors (rq_anchors rq0)) (rq_types rq0) (rq_sub rq0)); auto.
    + exists fuel, cs. rewrite <- W. split; [now right|]. apply (Permutation_in _ (sort_path_len_perm e0 cs)). rewrite ES. now left.
    + intros x typ j I Pj. apply (T (st_jwt x)) with (typ := typ); [|exact Pj]. unfold messages. now apply in_map.
  - apply Forall_forall. intros t I. rewrite (marks_extra _ _ _ _ _ _ _ V) with (t := t); auto.
    + split; [constructor|intros k []].
    + intros t' I'. unfold infos_of in I'. apply in_map_iff in I' as (tj & <- & _). reflexivity.
  - intros t I. now apply T.
Qed.
