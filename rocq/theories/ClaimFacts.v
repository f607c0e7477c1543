(** Collecting a claim over the metadata of all entity types. *)
From Verif Require Import Base BaseFacts GoVal Policy Schema Metadata MetadataFacts Chain Resolver FloatTime Json TrustMark Discovery SpecMetadata SpecDiscovery
  EvalFacts StatementLaws.
From Verif Require Import GoVal.
Local Open Scope nat_scope.
Local Open Scope string_scope.

(** Tags are unique, so the first field with the tag and kind string is the field with the
    tag, if that is a string. *)
Lemma string_field_any tag x : known_entity x -> well_typed x ->
  string_field tag x = match em_tag tag x with Some (VStr v) => Some (VStr v) | _ => None end.
Proof.
  intros K W. unfold string_field, em_tag. apply tags_nodup in K. unfold well_typed in W.
  induction (em_fields x) as [|[r v] l IH]; [reflexivity|]. cbn [map fst] in K. inversion K as [|? ? N K']; subst.
  inversion W as [|? ? W1 W2]; subst. cbn [find fst]. rewrite (String.eqb_sym (fr_tag r) tag). cbn [fst snd] in W1.
  destruct (String.eqb_spec tag (fr_tag r)) as [E|E]; cbn [andb]; [|now apply IH].
  destruct (is_string (fr_ty r)) eqn:S; cbn [snd option_map].
  { unfold well_typed_value in W1. destruct (fr_ty r); try discriminate S. destruct v; try discriminate W1. reflexivity. }
  assert (F : find (fun fv : frow * gval => (String.eqb (fr_tag (fst fv)) tag && is_string (fr_ty (fst fv)))%bool) l = None).
  { clear - N E. subst tag. induction l as [|[r' v'] l IH]; [reflexivity|]. cbn [map fst find] in *.
    destruct (String.eqb_spec (fr_tag r') (fr_tag r)) as [E|];
      [exfalso; apply N; left; exact E|cbn [andb]; apply IH; intros J; apply N; now right]. }
  rewrite F. cbn [option_map]. destruct v; try reflexivity. exfalso. unfold well_typed_value in W1.
  destruct (fr_ty r) as [| | | | | |t|t]; try discriminate. destruct t; try discriminate.
  destruct W1 as (n & vs & Q); discriminate.
Qed.

Lemma claims_any tag m ty v : known_types m -> (forall t x, typed_field m t = Some x -> well_typed x) ->
  (In (ty, v) (string_claims tag m) <-> v <> "" /\ has_type m ty /\ exists x, typed_field m ty = Some x /\ em_tag tag x = Some (VStr v)).
Proof.
  intros K WT. unfold string_claims. rewrite in_flat_map. split.
  - intros ([t0 x] & J & L). apply in_typed_entries in J. destruct J as [J1 J2]. cbn [fst snd] in L.
    rewrite string_field_any in L by (first [now apply (K t0)|now apply (WT t0)]).
    destruct (em_tag tag x) as [[]|] eqn:E; try contradiction. cbn [str_of] in L.
    destruct (String.eqb_spec s "") as [Z|Z]; [contradiction|]. destruct L as [[= <- <-]|[]]. eauto.
  - intros (Z & J1 & x & J2 & E). exists (ty, x). split; [now apply in_typed_entries|]. cbn [fst snd].
    rewrite string_field_any by (first [now apply (K ty)|now apply (WT ty)]). rewrite E. cbn [str_of].
    destruct (String.eqb_spec v ""); [contradiction|]. now left.
Qed.

Lemma lists_none tag m l : slice_claims tag m = Ok l -> l = [].
Proof. unfold slice_claims. destruct (existsb _ _); [discriminate|]. now intros [= <-]. Qed.

Lemma lists_panic tag m : known_types m -> (forall t x, typed_field m t = Some x -> well_typed x) ->
  (slice_claims tag m = Panic <-> exists ty x v, has_type m ty /\ typed_field m ty = Some x /\ em_tag tag x = Some (VStr v)).
Proof.
  intros K WT. unfold slice_claims. destruct (existsb _ _) eqn:E.
  - split; [|reflexivity]. intros _. apply existsb_exists in E. destruct E as ([t x] & I & F). apply in_typed_entries in I.
    destruct I as [I1 I2]. cbn [snd] in F. rewrite string_field_any in F by (first [now apply (K t)|now apply (WT t)]).
    destruct (em_tag tag x) as [[]|] eqn:E; try discriminate F. eauto 8.
  - split; [discriminate|]. intros (ty & x & v & T & F & G). exfalso.
    assert (X : existsb (fun te => match string_field tag (snd te) with Some _ => true | None => false end) (typed_entries m) = true).
    { apply existsb_exists. exists (ty, x). split; [now apply in_typed_entries|]. cbn [snd].
      rewrite string_field_any by (first [now apply (K ty)|now apply (WT ty)]). now rewrite G. }
    congruence.
Qed.

Lemma types_all m : NoDup (guess_entity_types m) /\ (forall ty, In ty (guess_entity_types m) <-> has_type m ty).
Proof.
  split; [|intros ty; apply in_guess]. assert (E : guess_entity_types m = map fst (typed_entries m)).
  { unfold guess_entity_types, typed_entries. rewrite !map_app.
    destruct (md_op m), (md_rp m), (md_as m), (md_oc m), (md_pr m), (md_fe m); reflexivity. }
  rewrite E. apply typed_entries_nodup.
Qed.

Lemma names_all m ty name : lookup ty (guess_display_names m) = Some name <-> shown_name m ty name.
Proof.
  rewrite lookup_unique; [apply in_display_names|]. unfold guess_display_names. rewrite map_map. cbn [fst]. apply typed_entries_nodup.
Qed.

Lemma texts_all tag m : known_types m -> (forall t x, typed_field m t = Some x -> well_typed x) ->
  NoDup (map fst (string_claims tag m)) /\
  forall ty v, In (ty, v) (string_claims tag m) <->
    v <> "" /\ has_type m ty /\ exists x, typed_field m ty = Some x /\ em_tag tag x = Some (VStr v).
Proof. intros K W. split; [apply string_claims_nodup|]. intros ty v. now apply claims_any. Qed.
