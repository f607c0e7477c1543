(** Standard metadata parameters. *)
From Coq Require Import QArith Lia.
From Verif Require Import Base BaseFacts GoVal Policy Schema OpFacts Metadata SpecPolicy SpecMetadata MetadataFacts Chain FloatTime SpecTime Json SpecJson JsonFacts
  TrustMark Leaf Config SpecDecode Statement SpecStatement StatementFacts StatementLaws SpecParameters.
From Verif Require Import GoVal.
Local Open Scope nat_scope.
Local Open Scope string_scope.

Definition type_schema (t : string) : list frow :=
  match lookup t [("openid_provider", op_schema); ("openid_relying_party", rp_schema); ("oauth_authorization_server", op_schema); ("oauth_client", rp_schema);
                  ("oauth_resource", pr_schema); ("federation_entity", fe_schema)] with Some s => s | None => [] end.
Definition kind_type (k : kind) : gty := match k with Text => TStr | Texts => TSlice TStr | Flag => TBool | Number => TInt | KeySet => TJwks | TextMap => TMap TStr | TextsMap => TMap (TSlice TStr) end.
Lemma gty_eqb_eq a : forall b, gty_eqb a b = true -> a = b.
Proof. induction a; intros []; cbn; intros H; try discriminate; f_equal; auto. Qed.
Lemma known_rows t name k : In t entity_type_names -> In (name, k) (standard_parameters t) -> ~ In name (missing_parameters t) ->
  exists r, In r (type_schema t) /\ fr_tag r = name /\ fr_ty r = kind_type k.
Proof.
  assert (B : forallb (fun t => forallb (fun nk => (mem (fst nk) (missing_parameters t) ||
    existsb (fun r => String.eqb (fr_tag r) (fst nk) && gty_eqb (fr_ty r) (kind_type (snd nk))) (type_schema t))%bool) (standard_parameters t)) entity_type_names = true)
    by (vm_compute; reflexivity).
  intros Ht Hp Nm. rewrite forallb_forall in B. specialize (B _ Ht). rewrite forallb_forall in B. specialize (B _ Hp). cbn [fst snd] in B.
  apply Bool.orb_prop in B as [B|B]; [apply mem_In in B; contradiction|]. apply existsb_exists in B as (r & Hr & B).
  apply andb_prop in B as [B1 B2]. exists r. split; [exact Hr|]. split; [now apply String.eqb_eq|now apply gty_eqb_eq].
Qed.
Lemma missing_rows t name : In t entity_type_names -> In name (missing_parameters t) -> ~ In name (map fr_tag (type_schema t)).
Proof.
  assert (B : forallb (fun t => forallb (fun n => negb (mem n (map fr_tag (type_schema t)))) (missing_parameters t)) entity_type_names = true) by (vm_compute; reflexivity).
  intros Ht Hp. rewrite forallb_forall in B. specialize (B _ Ht). rewrite forallb_forall in B. specialize (B _ Hp). apply mem_nIn. now apply Bool.negb_true_iff in B.
Qed.
Lemma no_dash t name k : In t entity_type_names -> In (name, k) (standard_parameters t) -> name <> "-".
Proof.
  assert (B : forallb (fun t => forallb (fun nk => negb (String.eqb (fst nk) "-")) (standard_parameters t)) entity_type_names = true) by (vm_compute; reflexivity).
  intros Ht Hp. rewrite forallb_forall in B. specialize (B _ Ht). rewrite forallb_forall in B. specialize (B _ Hp). cbn [fst] in B.
  apply Bool.negb_true_iff in B. now apply String.eqb_neq in B.
Qed.

(** The metadata of a type in decoded metadata. *)
Lemma typed_says j m t : plain j -> dec_metadata j = Ok m -> In t entity_type_names ->
  says (optional (entity_says (type_schema t))) None j t (typed t m) /\ In (type_schema t) entity_schemas.
Proof.
  intros P D Ht. apply (reads_metadata j P) in D as [O S1 S2 S3 S4 S5 S6 _ _].
  destruct Ht as [<-|[<-|[<-|[<-|[<-|[<-|[]]]]]]]; (split; [assumption|cbn; tauto]).
Qed.
Lemma plain_claim_members t j x : plain j -> claim t j = Some x -> members t j = [x].
Proof.
  intros P C. destruct j as [| | | | |o]; try discriminate. cbn [claim] in C. apply lookup_In in C. apply in_rev in C.
  assert (I : In x (members t (JObj o))).
  { cbn [members]. apply in_map_iff. exists (t, x). split; [reflexivity|]. apply filter_In. split; [exact C|apply String.eqb_refl]. }
  destruct (plain_members t _ P) as (y & [E|E]); rewrite E in *; [destruct I|]. destruct I as [->|[]]. reflexivity.
Qed.
Lemma texts_elements l : forall vs, Forall2 (attribute TStr) (map JStr l) vs -> vs = map VStr l.
Proof.
  induction l as [|s l IH]; intros vs F; inversion F as [|? v ? vs' A F']; subst; [reflexivity|]. cbn [map]. f_equal; [|now apply IH].
  destruct A as [(s' & [= <-] & ->)|[E _]]; [reflexivity|discriminate E].
Qed.
Lemma kind_attribute k y v w : of_kind k y v -> attribute (kind_type k) y w -> of_kind k y w.
Proof.
  intros K A. inversion K; subst; cbn [kind_type attribute] in A.
  - destruct A as [(t & [= <-] & ->)|[E _]]; [constructor|discriminate E].
  - destruct A as [(xs & vs & [= <-] & -> & F)|[E _]]; [|discriminate E]. apply texts_elements in F as ->. constructor.
  - destruct A as [(t & [= <-] & ->)|[E _]]; [constructor|discriminate E].
  - destruct A as [(q' & z' & [= <-] & E & ->)|[E _]]; [|discriminate E]. now constructor.
  - destruct A as [(o' & w' & [= <-] & E & ->)|[E _]]; [|discriminate E]. now constructor.
  - destruct A as [(o' & kv' & [= <-] & -> & N & C)|[E _]]; [|discriminate E]. constructor; [exact N|]. intros k. specialize (H0 k). specialize (C k).
    destruct (claim k (JObj o)) as [y|]; [|exact C]. destruct H0 as (s & -> & _), C as (a & L & A). exists s. split; [reflexivity|].
    cbn [attribute] in A. destruct A as [(s' & [= <-] & ->)|[E _]]; [exact L|discriminate E].
  - destruct A as [(o' & kv' & [= <-] & -> & N & C)|[E _]]; [|discriminate E]. constructor; [exact N|]. intros k. specialize (H0 k). specialize (C k).
    destruct (claim k (JObj o)) as [y|]; [|exact C]. destruct H0 as (l & -> & _), C as (a & L & A). exists l. split; [reflexivity|].
    cbn [attribute] in A. destruct A as [(xs & vs & [= <-] & -> & F)|[E _]]; [|discriminate E]. apply texts_elements in F as ->. exact L.
Qed.

Theorem parameter_understood j m t name k x y v : plain j -> dec_metadata j = Ok m -> In t entity_type_names ->
  In (name, k) (standard_parameters t) -> ~ In name (missing_parameters t) ->
  claim t j = Some x -> claim name x = Some y -> of_kind k y v ->
  exists em w, typed t m = Some em /\ em_tag name em = Some w /\ of_kind k y w.
Proof.
  intros P D Ht Hp Nm Cx Cy K. destruct (typed_says j m t P D Ht) as [[_ S] Hs]. rewrite (plain_claim_members _ _ _ P Cx) in S. cbn [rev app] in S.
  destruct (typed t m) as [em|]; cbn [optional] in S; [|subst; discriminate]. destruct S as [_ E].
  destruct (known_rows t name k Ht Hp Nm) as (r & Hr & <- & Ty).
  destruct (es_attributes _ _ _ E r Hr (no_dash _ _ _ Ht Hp)) as (w & T & A). exists em, w. split; [reflexivity|]. split; [exact T|].
  assert (Px : plain x). { apply (plain_member t j); [exact P|]. rewrite (plain_claim_members _ _ _ P Cx). now left. }
  unfold stated in A. rewrite (plain_claim_members _ _ _ Px Cy), Ty in A. cbn [last] in A. now apply (kind_attribute k y v).
Qed.

(** Parameters without a field are not subject to policies. *)
Theorem parameter_ignored j m t name em : plain j -> dec_metadata j = Ok m -> In t entity_type_names -> In name (missing_parameters t) ->
  typed t m = Some em -> em_tag name em = None /\ forall e p, apply_policy em ((name, e) :: p) = apply_policy em p.
Proof.
  intros P D Ht Hm T. destruct (typed_says j m t P D Ht) as [[_ S] Hs]. rewrite T in S.
  assert (R : map fst (em_fields em) = type_schema t).
  { destruct (rev (members t j)) as [|x l]; [discriminate S|]. destruct S as [_ E]. exact (es_rows _ _ _ E). }
  assert (N : ~ In name (map (fun fv : frow * gval => fr_tag (fst fv)) (em_fields em))).
  { rewrite <- (map_map fst fr_tag). rewrite R. now apply missing_rows. }
  split; [|intros e p; now apply apply_policy_unknown].
  unfold em_tag. destruct (find _ _) as [fv|] eqn:F; [|reflexivity]. apply find_some in F as [I F]. apply String.eqb_eq in F.
  exfalso. apply N. rewrite F. now apply (in_map (fun fv : frow * gval => fr_tag (fst fv))).
Qed.
