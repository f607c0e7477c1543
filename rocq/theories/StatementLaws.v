(** Metadata, policies, constraints, whole statements and resolve responses. *)
From Coq Require Import QArith Qround Lia.
From Verif Require Import Base BaseFacts GoVal Policy Schema OpFacts Metadata SpecPolicy SpecMetadata MetadataFacts Chain FloatTime SpecTime Json SpecJson JsonFacts
  TrustMark Leaf LeafFacts Config SpecDecode DecodeFacts DecodeLaws Statement SpecStatement StatementFacts.
From Verif Require Import GoVal.
Local Open Scope nat_scope.
Local Open Scope string_scope.

(** ** Metadata of one entity type *)
Lemma tags_nodup sch : In sch entity_schemas -> NoDup (map fr_tag sch).
Proof.
  assert (B : forallb (fun sch => MetadataFacts.nodupb (map fr_tag sch)) entity_schemas = true) by (vm_compute; reflexivity).
  intros H. rewrite forallb_forall in B. apply nodupb_NoDup. now apply B.
Qed.
Lemma find_tag (l : list (frow * gval)) r v : NoDup (map fr_tag (map fst l)) -> In (r, v) l ->
  find (fun fv : frow * gval => String.eqb (fr_tag r) (fr_tag (fst fv))) l = Some (r, v).
Proof.
  induction l as [|[r' v'] l IH]; cbn [map fst find]; intros N I; [destruct I|]. inversion N as [|? ? Hn N']; subst.
  destruct I as [[= -> ->]|I]; [now rewrite String.eqb_refl|].
  destruct (String.eqb_spec (fr_tag r) (fr_tag r')) as [E|]; [|now apply IH].
  exfalso. apply Hn. rewrite <- E, map_map. apply in_map_iff. exists (r, v). auto.
Qed.
Lemma zero_attribute t : attribute t JNull (zero_of t).
Proof. destruct t; cbn; auto. constructor. Qed.
Definition object_of (sch : list frow) (o : list (string * json)) : smap gval := last_map (map (fun kv => (fst kv, any_of (snd kv))) (folded sch o)).

Definition field_row (k : string) (r : frow) : bool := (negb (String.eqb (fr_tag r) "-") && String.eqb (fold_name (fr_tag r)) (fold_name k))%bool.
Lemma folds_distinct sch r r' : In sch entity_schemas -> In r sch -> In r' sch -> fr_tag r <> "-" -> fold_name (fr_tag r) = fold_name (fr_tag r') -> fr_tag r = fr_tag r'.
Proof.
  assert (B : forallb (fun sch => forallb (fun r => forallb (fun r' =>
    (negb (String.eqb (fold_name (fr_tag r)) (fold_name (fr_tag r'))) || String.eqb (fr_tag r) (fr_tag r'))%bool) sch) sch) entity_schemas = true) by (vm_compute; reflexivity).
  intros Hs H H' _ E. rewrite forallb_forall in B. specialize (B _ Hs). rewrite forallb_forall in B. specialize (B _ H). rewrite forallb_forall in B.
  specialize (B _ H'). rewrite E, String.eqb_refl in B. cbn in B. now apply String.eqb_eq.
Qed.
Lemma folded_app sch o kv : folded sch (o ++ [kv]) =
  (folded sch o ++ match find (field_row (fst kv)) sch with
                   | Some r => if String.eqb (fr_tag r) (fst kv) then [kv] else [(fr_tag r, snd kv); kv] | None => [kv] end)%list.
Proof. unfold folded. rewrite flat_map_app. cbn [flat_map]. now rewrite app_nil_r. Qed.
Lemma members_app t o kv : members t (JObj (o ++ [kv])) =
  (members t (JObj o) ++ if String.eqb (fold_name (fst kv)) (fold_name t) then [snd kv] else [])%list.
Proof. cbn [members]. rewrite filter_app, map_app. cbn [filter]. now destruct (String.eqb (fold_name (fst kv)) (fold_name t)). Qed.
Lemma folded_field sch o r : In sch entity_schemas -> In r sch -> fr_tag r <> "-" ->
  lookup (fr_tag r) (rev (folded sch o)) = hd_error (rev (members (fr_tag r) (JObj o))).
Proof.
  intros Hs Hr Nt. induction o as [|[k x] o IH] using rev_ind; [reflexivity|].
  rewrite folded_app, members_app, !rev_app_distr. cbn [fst snd].
  destruct (find (field_row k) sch) as [r'|] eqn:F.
  - apply find_some in F as [Hr' F]. unfold field_row in F. apply andb_prop in F as [F1 F2]. apply String.eqb_eq in F2.
    destruct (String.eqb_spec (fold_name k) (fold_name (fr_tag r))) as [E|N].
    + assert (T : fr_tag r = fr_tag r') by (apply (folds_distinct sch); congruence). rewrite <- T.
      destruct (String.eqb_spec (fr_tag r) k) as [->|Nk]; cbn [rev app lookup hd_error].
      * now rewrite String.eqb_refl.
      * destruct (String.eqb_spec (fr_tag r) k); [contradiction|]. now rewrite String.eqb_refl.
    + assert (Nk : fr_tag r <> k) by congruence. assert (Nr : fr_tag r <> fr_tag r') by congruence.
      destruct (String.eqb (fr_tag r') k); cbn [rev app lookup]; rewrite (proj2 (String.eqb_neq _ _) Nk), ?(proj2 (String.eqb_neq _ _) Nr); exact IH.
  - destruct (String.eqb_spec (fold_name k) (fold_name (fr_tag r))) as [E|N].
    + exfalso. apply (find_none _ _ F) in Hr. unfold field_row in Hr. rewrite E, String.eqb_refl in Hr.
      destruct (String.eqb_spec (fr_tag r) "-"); [contradiction|discriminate].
    + assert (Nk : fr_tag r <> k) by congruence. cbn [rev app lookup]. rewrite (proj2 (String.eqb_neq _ _) Nk). exact IH.
Qed.
Lemma folded_other sch o k : mem k (filter (fun t => negb (String.eqb t "-")) (map fr_tag sch)) = false ->
  lookup k (rev (folded sch o)) = lookup k (rev o).
Proof.
  intros M. induction o as [|[k' x] o IH] using rev_ind; [reflexivity|].
  rewrite folded_app, !rev_app_distr. cbn [fst snd]. destruct (find (field_row k') sch) as [r|] eqn:F; [|cbn [rev app lookup]; now rewrite IH].
  destruct (String.eqb (fr_tag r) k'); cbn [rev app lookup]; [now rewrite IH|].
  apply find_some in F as [Hr F]. unfold field_row in F. apply andb_prop in F as [F1 _].
  assert (N : k <> fr_tag r).
  { intros ->. apply mem_nIn in M. apply M. apply filter_In. split; [now apply in_map|exact F1]. }
  rewrite (proj2 (String.eqb_neq _ _) N), IH. reflexivity.
Qed.
Lemma last_hd {A} (l : list A) d : last l d = match hd_error (rev l) with Some x => x | None => d end.
Proof. destruct l as [|a l] using rev_ind; [reflexivity|]. now rewrite last_last, rev_app_distr. Qed.
Lemma hd_member {A} (l : list A) x : hd_error (rev l) = Some x -> In x l.
Proof. intros H. apply in_rev. destruct (rev l); [discriminate|injection H as ->; now left]. Qed.

Lemma lookup_filter {A} (p : string -> bool) (m : smap A) k :
  lookup k (filter (fun kv => p (fst kv)) m) = if p k then lookup k m else None.
Proof.
  induction m as [|[a b] m IH]; cbn [filter lookup fst]; [now destruct (p k)|]. destruct (p a) eqn:P; cbn [lookup];
    (destruct (String.eqb_spec k a) as [->|]; [rewrite ?P; [reflexivity || now rewrite IH, P]|exact IH]).
Qed.
Lemma find_shape sch o vs ws r : In sch entity_schemas -> Forall2 (fun r x => decode_field (object_of sch o) r = Ok x) sch vs -> In r sch ->
  exists v s, decode_field (object_of sch o) r = Ok (v, s) /\ In (r, (v, s)) (combine sch vs) /\
    find (fun fv : frow * gval => String.eqb (fr_tag r) (fr_tag (fst fv))) (em_fields (EMeta (map (c_field sch (object_of sch o)) (combine sch vs)) ws))
    = Some (c_field sch (object_of sch o) (r, (v, s))).
Proof.
  intros Hs Hd Hr.
  assert (I : exists v s, In (r, (v, s)) (combine sch vs)).
  { clear Hs. revert Hd. generalize (object_of sch o). intros ob Hd. induction Hd as [|r' [v s] l l' E D IH]; [destruct Hr|]. destruct Hr as [->|Hr]; [exists v, s; now left|].
    destruct (IH Hr) as (v' & s' & I). exists v', s'. now right. }
  destruct I as (v & s & I). exists v, s. pose proof (rows_in sch _ vs Hd _ I) as D. split; [exact D|]. split; [exact I|]. cbn [em_fields].
  apply (find_tag _ r (snd (c_field sch (object_of sch o) (r, (v, s))))).
  - assert (E : map fst (map (c_field sch (object_of sch o)) (combine sch vs)) = sch).
    { rewrite map_map. rewrite <- (rows_fst sch (object_of sch o) vs Hd) at 2. apply map_ext. now intros [r' [v' s']]. }
    rewrite E. now apply tags_nodup.
  - change (r, snd (c_field sch (object_of sch o) (r, (v, s)))) with (c_field sch (object_of sch o) (r, (v, s))). now apply in_map.
Qed.

Theorem reads_entity sch x : In sch entity_schemas -> plain x -> reads (dec_entity sch) (entity_says sch) x.
Proof.
  intros Hs P. unfold reads, dec_entity. split.
  - intros m H. destruct x as [| | | | |o]; try discriminate. fold (object_of sch o) in H. apply decode_meta_shape in H as (vs & Hd & ->).
    constructor.
    + eauto.
    + cbn [em_fields]. rewrite map_map. rewrite <- (rows_fst sch _ vs Hd) at 2. apply map_ext. now intros [r [v s]].
    + intros r Hr Nt. destruct (find_shape sch o vs (flat_map (fun rv => if c_cond sch (object_of sch o) rv then [fr_name (fst rv)] else []) (combine sch vs) ++ keys (c_ex sch (object_of sch o)))%list r Hs Hd Hr) as (v & s & D & I & F).
      exists v. unfold em_tag. rewrite F. cbn [c_field snd]. unfold decode_field in D.
      destruct (String.eqb_spec (fr_tag r) "-"); [contradiction|]. split; [reflexivity|].
      unfold object_of in D. rewrite lookup_last_mapped in D. rewrite (folded_field sch o r Hs Hr Nt) in D. unfold stated. rewrite last_hd.
      destruct (hd_error (rev (members (fr_tag r) (JObj o)))) as [y|] eqn:L; cbn [option_map] in D.
      * apply bind_ok in D as (v' & D & [= <- <-]). apply reads_attribute; [exact (plain_member _ _ _ P (hd_member _ _ L))|exact D].
      * injection D as <- _. apply zero_attribute.
    + rewrite (cached_extra sch _ vs Hs Hd). unfold c_ex, extra_of. apply keys_filter. apply last_map_NoDup.
    + intros k. rewrite (cached_extra sch _ vs Hs Hd). unfold c_ex, extra_of.
      rewrite (lookup_filter (fun k => negb (mem k (filter (fun t => negb (String.eqb t "-")) (map fr_tag sch))))).
      assert (M : k <> "-" -> mem k (filter (fun t => negb (String.eqb t "-")) (map fr_tag sch)) = mem k (map fr_tag sch)).
      { intros Nk. destruct (mem k (map fr_tag sch)) eqn:E.
        - apply mem_In. apply mem_In in E. apply filter_In. split; [exact E|]. destruct (String.eqb_spec k "-"); [contradiction|reflexivity].
        - apply mem_nIn. apply mem_nIn in E. intros I. apply E. now apply filter_In in I as [I _]. }
      unfold object_of. rewrite lookup_last_mapped. cbn [claim].
      destruct (mem k (map fr_tag sch)) eqn:E.
      * destruct (String.eqb_spec k "-") as [Ek|Nk]; [|intros _; now rewrite (M Nk)]. intros [Nk|Nk]; [contradiction|]. rewrite folded_other, Nk.
        -- cbn [option_map]. now destruct (negb _).
        -- apply mem_nIn. intros I. apply filter_In in I as [_ I]. now rewrite Ek in I.
      * rewrite folded_other.
        2:{ apply mem_nIn. apply mem_nIn in E. intros I. apply E. now apply filter_In in I as [I _]. }
        destruct (lookup k (rev o)) as [y|] eqn:L; cbn [option_map].
        -- exists (any_of y). split; [|apply any_same; exact (plain_claim _ _ _ P L)].
           assert (Nm : mem k (filter (fun t => negb (String.eqb t "-")) (map fr_tag sch)) = false).
           { apply mem_nIn. apply mem_nIn in E. intros I. apply E. now apply filter_In in I as [I _]. }
           now rewrite Nm.
        -- intros _. now destruct (negb _).
  - intros (m & [(o & ->) _ A _ _]). fold (object_of sch o). unfold decode_meta.
    destruct (map_res_reads (decode_field (object_of sch o)) sch) as [vs Ev].
    + intros r Hr. unfold decode_field. destruct (String.eqb_spec (fr_tag r) "-"); [eauto|].
      unfold object_of. rewrite lookup_last_mapped, (folded_field sch o r Hs Hr) by assumption.
      destruct (hd_error (rev (members (fr_tag r) (JObj o)))) as [y|] eqn:L; cbn [option_map]; [|eauto].
      destruct (A r Hr) as (v & _ & At); [assumption|]. unfold stated in At. rewrite last_hd, L in At.
      destruct (proj2 (reads_attribute (fr_ty r) y (plain_member _ _ _ P (hd_member _ _ L)))) as [b D]; [eauto|]. rewrite D. cbn. eauto.
    + rewrite Ev. cbn [bind]. eauto.
Qed.

(** Which attributes count as set. *)
Theorem set_says sch x m r : In sch entity_schemas -> dec_entity sch x = Ok m -> In r sch -> fr_tag r <> "-" ->
  claim (fr_name r) x = None ->
  (attr_set (fr_tag r) m = true <-> stated (fr_tag r) x <> JNull).
Proof.
  intros Hs H Hr Nt C. destruct x as [| | | | |o]; try discriminate. cbn [dec_entity] in H. fold (object_of sch o) in H. apply decode_meta_shape in H as (vs & Hd & ->).
  set (ws := (_ ++ _)%list). destruct (find_shape sch o vs ws r Hs Hd Hr) as (v & s & D & I & F).
  unfold attr_set. rewrite F. cbn [c_field]. pose proof (cached_mem sch _ vs Hs Hd _ I) as M. cbn [fst] in M. fold ws in M. rewrite M.
  assert (K : mem (fr_name r) (keys (c_ex sch (object_of sch o))) = false).
  { apply mem_nIn. intros Ik. apply keys_lookup in Ik as [w L]. unfold c_ex, extra_of in L.
    rewrite (lookup_filter (fun k => negb (mem k (filter (fun t => negb (String.eqb t "-")) (map fr_tag sch))))) in L.
    destruct (mem (fr_name r) (filter (fun t => negb (String.eqb t "-")) (map fr_tag sch))) eqn:Mt; [discriminate|].
    unfold object_of in L. rewrite lookup_last_mapped in L. cbn [claim] in C. rewrite (folded_other _ _ _ Mt), C in L. discriminate. }
  rewrite K, Bool.orb_false_r. cbn [c_cond]. unfold decode_field in D. destruct (String.eqb_spec (fr_tag r) "-"); [contradiction|].
  unfold object_of in D. rewrite lookup_last_mapped, (folded_field sch o r Hs Hr Nt) in D. unfold stated. rewrite last_hd.
  destruct (hd_error (rev (members (fr_tag r) (JObj o)))) as [y|]; cbn [option_map] in D.
  - apply bind_ok in D as (v' & _ & [= <- <-]). split.
    + intros E ->. discriminate E.
    + intros Ny. destruct y; try reflexivity. congruence.
  - injection D as _ <-. split; [discriminate|]. intros E. now contradiction E.
Qed.

(** ** Structs *)
Ltac sfld := match goal with
  | H : field_says _ _ _ |- _ =>
      first [apply words_field in H | apply value_field in H];
      let s := fresh "v" in let H' := fresh "S" in destruct H as (s & -> & H')
  end.
Ltac sfields := repeat match goal with H : Forall2 (field_says _) (_ :: _) _ |- _ => inversion H; clear H; subst end;
  repeat match goal with H : Forall2 (field_says _) [] _ |- _ => inversion H; clear H; subst end; repeat sfld.

Lemma naming_distinct : distinct_names naming_fields. Proof. distinct. Qed.
Lemma constraint_distinct : distinct_names constraint_fields. Proof. distinct. Qed.
Lemma owner_distinct kc : distinct_names (owner_fields kc). Proof. distinct. Qed.
Lemma metadata_distinct : distinct_names metadata_fields. Proof. distinct. Qed.
Lemma statement_distinct kc : distinct_names (statement_fields kc). Proof. distinct. Qed.
Lemma response_distinct jws : distinct_names (response_fields jws). Proof. distinct. Qed.

Lemma items_means x o : text_list x o -> texts_or_none x (items o).
Proof. intros H. exists o. split; [exact H|]. now destruct o. Qed.
Lemma says_names j t o : says (yields dec_names) None j t o -> says text_list None j t o.
Proof. apply says_to. intros x _. apply reads_names. Qed.
Lemma says_items j t o : says (yields dec_names) None j t o -> says texts_or_none [] j t (items o).
Proof.
  intros S. apply says_names in S. apply (says_map items) in S. revert S. apply says_weaken. intros x b (a & M & ->). now apply items_means.
Qed.
Lemma names_says j t o : says text_list None j t o -> exists o', says (yields dec_names) None j t o'.
Proof. apply says_from. intros x _. apply reads_names. Qed.
Lemma items_says j t l : says texts_or_none [] j t l -> exists o', says (yields dec_names) None j t o'.
Proof.
  intros [H E]. assert (K : forall x, In x (members t j) -> exists b, yields dec_names x b).
  { intros x I. destruct (H x I) as (b & o & T & _). apply (reads_names x). eauto. }
  unfold says. destruct (rev (members t j)) as [|x r] eqn:V; [exists None; auto|].
  destruct (K x) as [b D]; [apply in_rev; rewrite V; now left|]. exists b. auto.
Qed.

Lemma reads_naming x : reads dec_naming naming_says x.
Proof.
  unfold reads, dec_naming. split.
  - intros n H. apply bind_ok in H as (vs & D & [= <-]). apply unmarshal_exact in D as [O F]; [|exact naming_distinct].
    unfold naming_fields in F. sfields. constructor; cbn; [assumption|now apply says_names|now apply says_items].
  - intros (n & [O P E]). apply names_says in P as [p P]. apply items_says in E as [e E].
    assert (D : unmarshal naming_fields x = Ok [SNames p; SNames e]).
    { apply unmarshal_exact; [exact naming_distinct|]. split; [exact O|]. repeat constructor; apply value_field; eauto. }
    rewrite D. cbn. eauto.
Qed.
Lemma reads_constraints x : reads dec_constraints constraints_says x.
Proof.
  unfold reads, dec_constraints. split.
  - intros n H. apply bind_ok in H as (vs & D & [= <-]). apply unmarshal_exact in D as [O F]; [|exact constraint_distinct].
    unfold constraint_fields in F. sfields. constructor; cbn; [assumption| | |now apply says_names].
    + eapply says_to; [|eassumption]. intros y _. apply reads_ptr. intros _. apply reads_int.
    + eapply says_to; [|eassumption]. intros y _. apply reads_ptr. intros _. apply reads_naming.
  - intros (n & [O M N T]). apply names_says in T as [t T].
    apply (says_from (dec_ptr dec_int)) in M as [m M]; [|intros y _; apply reads_ptr; intros _; apply reads_int].
    apply (says_from (dec_ptr dec_naming)) in N as [k N]; [|intros y _; apply reads_ptr; intros _; apply reads_naming].
    assert (D : unmarshal constraint_fields x = Ok [SInt m; SNaming k; SNames t]).
    { apply unmarshal_exact; [exact constraint_distinct|]. split; [exact O|]. repeat constructor; apply value_field; eauto. }
    rewrite D. cbn. eauto.
Qed.
Lemma reads_owner kc x : reads (dec_owner kc) (owner_says kc) x.
Proof.
  unfold reads, dec_owner. split.
  - intros n H. apply bind_ok in H as (vs & D & [= <-]). apply unmarshal_exact in D as [O F]; [|exact (owner_distinct kc)].
    unfold owner_fields in F. sfields. constructor; cbn; [assumption|assumption|].
    eapply says_to; [|eassumption]. intros y _. apply reads_keys.
  - intros ([s ks] & [O S K]). cbn [fst snd] in *. apply (says_from (dec_keys kc)) in K as [k K]; [|intros y _; apply reads_keys].
    assert (D : unmarshal (owner_fields kc) x = Ok [SStr s; SKeys k]).
    { apply unmarshal_exact; [exact (owner_distinct kc)|]. split; [exact O|]. repeat constructor; [apply words_field|apply value_field]; eauto. }
    rewrite D. cbn. eauto.
Qed.
Lemma reads_issuer x : reads (fun x => l <- dec_names x ;; Ok (items l)) texts_or_none x.
Proof.
  split.
  - intros a H. apply bind_ok in H as (o & D & [= <-]). apply items_means. now apply reads_names.
  - intros (l & o & T & _). destruct (proj2 (reads_names x)) as [b D]; [eauto|]. rewrite D. cbn. eauto.
Qed.

Lemma entity_schema_in ts : In ts [("openid_provider", op_schema); ("openid_relying_party", rp_schema); ("oauth_authorization_server", op_schema);
     ("oauth_client", rp_schema); ("oauth_resource", pr_schema); ("federation_entity", fe_schema)] -> In (snd ts) entity_schemas.
Proof. cbn. intros H. repeat (destruct H as [<-|H]; [cbn; tauto|]). destruct H. Qed.

Lemma entity_field_to sch j t a : In sch entity_schemas -> plain j ->
  says (yields (dec_ptr (dec_entity sch))) None j t a -> says (optional (entity_says sch)) None j t a.
Proof. intros Hs P. apply says_to. intros x I. apply reads_ptr. intros _. apply reads_entity; [exact Hs|]. now apply (plain_member t j). Qed.
Lemma entity_field_from sch j t a : In sch entity_schemas -> plain j ->
  says (optional (entity_says sch)) None j t a -> exists b, says (yields (dec_ptr (dec_entity sch))) None j t b.
Proof. intros Hs P. apply says_from. intros x I. apply reads_ptr. intros _. apply reads_entity; [exact Hs|]. now apply (plain_member t j). Qed.

Lemma plain_others names j k y : plain j -> lookup k (others names j) = Some y -> plain y.
Proof.
  intros P L. destruct j as [| | | | |o]; try discriminate. cbn [others] in L.
  rewrite (lookup_filter (fun k => negb (mem k names))) in L. destruct (negb _); [|discriminate]. rewrite lookup_as_map in L.
  exact (plain_claim _ _ _ P L).
Qed.

Theorem reads_metadata x : plain x -> reads dec_metadata metadata_says x.
Proof.
  intros P. unfold reads, dec_metadata. fold (decode metadata_fields x). split.
  - intros m H. apply bind_ok in H as ([vs ex] & D & [= <-]). apply decode_exact in D as (O & F & ->); [|exact metadata_distinct].
    unfold metadata_fields in F. cbn [map fst snd] in F. sfields.
    constructor; cbn [md_op md_rp md_as md_oc md_pr md_fe md_extra sv_entity snth nth];
      try (apply entity_field_to; [cbn; tauto|exact P|assumption]); [exact O| |].
    + rewrite (keys_map any_of). apply (others_says x entity_type_names).
    + intros k. rewrite (lookup_map any_of). change (tags metadata_fields) with entity_type_names.
      destruct (others_says x entity_type_names) as [_ L]. pose proof (plain_others entity_type_names x k) as Po. rewrite (L k) in *.
      destruct (if mem k entity_type_names then None else claim k x) as [y|]; cbn [option_map]; [|reflexivity].
      exists (any_of y). split; [reflexivity|]. apply any_same. now apply Po.
  - intros (m & [O S1 S2 S3 S4 S5 S6 _ _]).
    apply entity_field_from in S1 as [v1 S1]; [|cbn; tauto|exact P]. apply entity_field_from in S2 as [v2 S2]; [|cbn; tauto|exact P].
    apply entity_field_from in S3 as [v3 S3]; [|cbn; tauto|exact P]. apply entity_field_from in S4 as [v4 S4]; [|cbn; tauto|exact P].
    apply entity_field_from in S5 as [v5 S5]; [|cbn; tauto|exact P]. apply entity_field_from in S6 as [v6 S6]; [|cbn; tauto|exact P].
    assert (D : decode metadata_fields x = Ok ([SEntity v1; SEntity v2; SEntity v3; SEntity v4; SEntity v5; SEntity v6], others (tags metadata_fields) x)).
    { apply decode_exact; [exact metadata_distinct|]. split; [exact O|]. split; [|reflexivity]. unfold metadata_fields. cbn [map fst snd].
      repeat constructor; apply value_field; eauto. }
    rewrite D. cbn. eauto.
Qed.

(** ** Policies *)
Definition dec_entry (x : json) : res entry :=
  match x with JNull => Ok [] | JObj e => Ok (entry_of (Some (as_map e))) | _ => Err end.
Lemma map_insert {A B} (f : A -> B) k v (m : smap A) :
  map (fun kv => (fst kv, f (snd kv))) (insert k v m) = insert k (f v) (map (fun kv => (fst kv, f (snd kv))) m).
Proof. induction m as [|[a b] m IH]; cbn; [reflexivity|]. destruct (String.eqb k a); cbn; [reflexivity|now rewrite IH]. Qed.
Lemma entries_map o : forall m,
  (r <- dec_entries o m ;; Ok (map (fun kv => (fst kv, entry_of (snd kv))) r)) =
  (kv <- map_res (fun x => v <- dec_entry (snd x) ;; Ok (fst x, v)) o ;;
   Ok (fold_left (fun m kv => insert (fst kv) (snd kv) m) kv (map (fun kv => (fst kv, entry_of (snd kv))) m))).
Proof.
  induction o as [|[k j] o IH]; intros m; [reflexivity|]. cbn [map_res fst snd]. destruct j; cbn [dec_entries dec_entry bind]; try reflexivity;
    rewrite IH, map_insert; destruct (map_res _ o); reflexivity.
Qed.
Lemma policy_dec x : (p <- dec_policy None x ;; Ok (policy_of p)) = dec_ptr (dec_map dec_entry) x.
Proof.
  destruct x as [| | | | |o]; try reflexivity. cbn [dec_policy dec_ptr dec_map]. pose proof (entries_map o []) as E. cbn [map] in E.
  fold (@last_map entry) in E. destruct (dec_entries o []) as [r| |], (map_res _ o) as [kv| |]; cbn [bind] in *; try discriminate; try reflexivity.
  injection E as E. unfold policy_of, last_map. cbn [option_map]. now rewrite E.
Qed.
Lemma reads_entry x : plain x -> reads dec_entry operands x.
Proof.
  intros P. unfold reads, dec_entry, operands, is_object. split.
  - intros e H. destruct x as [| | | | |o]; try discriminate; injection H as <-.
    + split; [now left|]. split; [constructor|reflexivity].
    + split; [right; eauto|]. cbn [entry_of]. rewrite (keys_map any_of). split; [apply as_map_NoDup|]. intros k. cbn [claim].
      rewrite (lookup_map any_of), lookup_as_map. destruct (lookup k (rev o)) as [y|] eqn:L; cbn; [|reflexivity].
      exists (any_of y). split; [reflexivity|]. apply any_same. exact (plain_claim _ _ _ P L).
  - intros (e & [-> | [o ->]] & _); eauto.
Qed.
Lemma reads_policy x : plain x -> reads (fun x => p <- dec_policy None x ;; Ok (policy_of p)) policy_means x.
Proof.
  intros P. unfold policy_means. unfold reads. rewrite policy_dec. apply reads_ptr. intros _. apply reads_map.
  intros o kv -> I. apply reads_entry. inversion P as [| | | | |o' N F]; subst. rewrite Forall_forall in F. exact (F _ I).
Qed.
Lemma policy_field_says j t om v : plain j -> field_says j (JField t om policy_codec) v ->
  says policy_means None j t (policy_of v).
Proof.
  intros P. unfold field_says, says. cbn [f_codec f_tag]. change (c_zero policy_codec) with (@None (smap (option (smap json)))).
  destruct (plain_members t j P) as (x & [E|E]); rewrite E.
  - cbn. intros [= <-]. split; [intros x' []|reflexivity].
  - cbn [dec_seq]. intros H. apply bind_ok in H as (p & D & [= <-]). cbn [c_dec policy_codec] in D.
    assert (M : policy_means x (policy_of p)).
    { apply reads_policy; [apply (plain_member t j); [exact P|rewrite E; now left]|]. rewrite D. reflexivity. }
    cbn. split; [|exact M]. intros x' [<-|[]]. eauto.
Qed.
Lemma policy_says_field j t om p : plain j -> says policy_means None j t p -> exists v, field_says j (JField t om policy_codec) v.
Proof.
  intros P. unfold field_says, says. cbn [f_codec f_tag]. change (c_zero policy_codec) with (@None (smap (option (smap json)))).
  destruct (plain_members t j P) as (x & [E|E]); rewrite E; [intros _; exists None; reflexivity|]. intros [H _].
  destruct (H x (or_introl eq_refl)) as [b M]. cbn [dec_seq c_dec policy_codec].
  destruct (proj2 (reads_policy x (plain_member t j x P ltac:(rewrite E; now left)))) as [c D]; [eauto|].
  apply bind_ok in D as (p' & D & _). rewrite D. cbn. eauto.
Qed.

Lemma others_none names j : is_object j -> (others names j = [] <-> forall o, j = JObj o -> forall k, In k (keys o) -> In k names).
Proof.
  intros [-> | [o ->]]; cbn [others]; [split; [discriminate|reflexivity]|]. split.
  - intros E o' [= <-] k I. destruct (mem k names) eqn:M; [now apply mem_In|]. exfalso.
    destruct (keys_lookup k (rev o)) as [v L]; [unfold keys; rewrite map_rev; now apply in_rev in I|].
    rewrite <- lookup_as_map in L. pose proof (lookup_filter (fun k => negb (mem k names)) (as_map o) k) as LF. cbv beta in LF. rewrite E, M, L in LF. discriminate LF.
  - intros H. destruct (filter _ (as_map o)) as [|[k v] r] eqn:E; [reflexivity|]. exfalso.
    assert (I : In (k, v) (filter (fun kv => negb (mem (fst kv) names)) (as_map o))) by (rewrite E; now left).
    apply filter_In in I as [I M]. cbn [fst] in M. apply (In_lookup _ _ _ (as_map_NoDup o)) in I. rewrite lookup_as_map in I.
    apply lookup_keys in I. unfold keys in I. rewrite map_rev in I. apply in_rev in I. apply (H o eq_refl), mem_In in I. now rewrite I in M.
Qed.

Theorem reads_policies x : plain x -> reads dec_policies policies_says x.
Proof.
  intros P. unfold reads, dec_policies, unmarshal_policies. fold (decode policies_fields x). split.
  - intros p H. apply bind_ok in H as (q & D & [= <-]). apply bind_ok in D as ([vs ex] & D & E).
    apply decode_exact in D as (O & F & ->); [|exact policies_distinct]. apply bind_ok in E as (ps & A & [= <-]).
    assert (Z : others (tags policies_fields) x = []) by (destruct (others _ x) as [|[k v] r]; [reflexivity|discriminate A]).
    rewrite Z in A. injection A as <-. change (tags policies_fields) with entity_type_names in Z. pose proof (proj1 (others_none entity_type_names x O) Z) as Kn.
    unfold policies_fields in F. cbn [map] in F.
    repeat match goal with H : Forall2 (field_says _) (_ :: _) _ |- _ => inversion H; clear H; subst end.
    match goal with H : Forall2 (field_says _) [] _ |- _ => inversion H; clear H; subst end.
    constructor; cbn [mp_op mp_rp mp_as mp_oc mp_pr mp_fe mp_extra jp_known jp_extra nth map]; auto; eapply policy_field_says; eauto.
  - intros (p & [O K S1 S2 S3 S4 S5 S6 _]). pose proof (proj2 (others_none entity_type_names x O) K) as Kn.
    apply (policy_says_field _ _ true) in S1 as [v1 S1]; [|exact P]. apply (policy_says_field _ _ true) in S2 as [v2 S2]; [|exact P].
    apply (policy_says_field _ _ true) in S3 as [v3 S3]; [|exact P]. apply (policy_says_field _ _ true) in S4 as [v4 S4]; [|exact P].
    apply (policy_says_field _ _ true) in S5 as [v5 S5]; [|exact P]. apply (policy_says_field _ _ true) in S6 as [v6 S6]; [|exact P].
    assert (D : decode policies_fields x = Ok ([v1; v2; v3; v4; v5; v6], others (tags policies_fields) x)).
    { apply decode_exact; [exact policies_distinct|]. split; [exact O|]. split; [|reflexivity]. unfold policies_fields. cbn [map].
      repeat constructor; assumption. }
    rewrite D. change (tags policies_fields) with entity_type_names. rewrite Kn. cbn. eauto.
Qed.

(** ** Trust marks *)
Lemma reads_info x : reads (fun x => unmarshal_info x (Info "" "" [] None)) info_entry x.
Proof.
  change (Info "" "" [] None) with fresh_info. split.
  - intros t H. exact (info_read _ _ H).
  - intros (t & S & _). destruct (info_readable _ _ S) as (t' & D & _). eauto.
Qed.
Lemma reads_infos x : reads dec_infos info_list x.
Proof. apply reads_slice. intros l y _ _. apply reads_info. Qed.
Lemma says_marks j t l : says (yields dec_infos) [] j t l -> says mark_list [] j t (map (fun t => (ti_type t, ti_jwt t)) l).
Proof.
  intros S. assert (S' : says info_list [] j t l) by (revert S; apply says_to; intros x _; apply reads_infos).
  apply (says_map (map (fun t => (ti_type t, ti_jwt t)))) in S'. revert S'. apply says_weaken.
  intros x b (a & [[-> ->] | (xs & -> & F)] & ->); [now left|]. right. exists xs. split; [reflexivity|].
  induction F as [|y z ys zs [I _] F IH]; cbn [map]; constructor; [|exact IH]. exists z. auto.
Qed.
Lemma marks_says j t l : says mark_list [] j t l -> exists l', says (yields dec_infos) [] j t l'.
Proof.
  intros [H E]. assert (K : forall x, In x (members t j) -> exists b, yields dec_infos x b).
  { intros x I. apply (reads_infos x). destruct (H x I) as (b & [[-> ->] | (xs & -> & F)]); [exists []; now left|].
    assert (exists ts, Forall2 info_entry xs ts) as [ts Ft].
    { clear -F. induction F as [|y z ys zs (t & I & _) F [ts IH]]; [exists []; constructor|].
      destruct (info_readable _ _ I) as (t' & D & S'). apply info_read in D as [S2 N]. exists (t' :: ts). constructor; [split; assumption|exact IH]. }
    exists ts. right. eauto. }
  unfold says. destruct (rev (members t j)) as [|x r] eqn:V; [exists []; auto|].
  destruct (K x) as [b D]; [apply in_rev; rewrite V; now left|]. exists b. auto.
Qed.

(** ** Statements *)
Theorem statement_read kc jwt j s : plain j -> dec_statement kc jwt j = Ok s -> statement_says kc j s /\ st_jwt s = jwt.
Proof.
  intros P H. unfold dec_statement in H. fold (decode (statement_fields kc) j) in H. apply bind_ok in H as ([vs ex] & D & [= <-]).
  apply decode_exact in D as (O & F & ->); [|exact (statement_distinct kc)]. unfold statement_fields in F. sfields. split; [|reflexivity].
  constructor; cbn [st_iss st_sub st_iat st_exp st_jwks st_hints st_metadata st_policy st_constraints st_crit st_policy_crit st_marks st_mark_issuers
                    st_mark_owners snth nth sv_str sv_time sv_keys sv_names sv_meta sv_pol sv_cons sv_marks sv_issuers sv_owners]; eauto.
  - now apply says_time_iff.
  - now apply says_time_iff.
  - eapply says_to; [|eassumption]. intros y _. apply reads_keys.
  - now apply says_items.
  - eapply says_to; [|eassumption]. intros y I. apply reads_ptr. intros _. apply reads_metadata. exact (plain_member _ _ _ P I).
  - eapply says_to; [|eassumption]. intros y I. apply reads_ptr. intros _. apply reads_policies. exact (plain_member _ _ _ P I).
  - eapply says_to; [|eassumption]. intros y I. apply reads_ptr. intros _. apply reads_constraints.
  - now apply says_items.
  - now apply says_items.
  - now apply says_marks.
  - eapply says_to; [|eassumption]. intros y I. apply reads_map. intros o kv _ _. apply reads_issuer.
  - eapply says_to; [|eassumption]. intros y I. apply reads_map. intros o kv _ _. apply reads_owner.
Qed.

(** What holds for documents with repeated names as well. *)
Theorem statement_basics kc jwt j s : dec_statement kc jwt j = Ok s ->
  is_object j /\ says_text j "iss" (st_iss s) /\ says_text j "sub" (st_sub s) /\
  says_time j "iat" (st_iat s) /\ says_time j "exp" (st_exp s) /\
  says (key_set kc) None j "jwks" (st_jwks s) /\ says texts_or_none [] j "authority_hints" (st_hints s) /\ st_jwt s = jwt.
Proof.
  intros H. unfold dec_statement in H. fold (decode (statement_fields kc) j) in H. apply bind_ok in H as ([vs ex] & D & [= <-]).
  apply decode_exact in D as (O & F & ->); [|exact (statement_distinct kc)]. unfold statement_fields in F. sfields.
  cbn [st_iss st_sub st_iat st_exp st_jwks st_hints st_jwt snth nth sv_str sv_time sv_keys sv_names].
  split; [exact O|]. split; [assumption|]. split; [assumption|]. split; [now apply says_time_iff|]. split; [now apply says_time_iff|].
  split; [|split; [now apply says_items|reflexivity]]. eapply says_to; [|eassumption]. intros y _. apply reads_keys.
Qed.

Theorem statement_readable kc jwt j s : plain j -> statement_says kc j s -> exists s', dec_statement kc jwt j = Ok s'.
Proof.
  intros P [O Siss Ssub Siat Sexp Sk Sh Sm Sp Sc Scr Spc Stm Sti Sto [aud Sa] [src Ss] [anc St]].
  apply says_time_iff in Siat, Sexp.
  apply (says_from (dec_keys kc)) in Sk as [k Sk]; [|intros y _; apply reads_keys].
  apply items_says in Sh as [h Sh]. apply items_says in Scr as [cr Scr]. apply items_says in Spc as [pc Spc].
  apply (says_from (dec_ptr dec_metadata)) in Sm as [m Sm]; [|intros y I; apply reads_ptr; intros _; apply reads_metadata; exact (plain_member _ _ _ P I)].
  apply (says_from (dec_ptr dec_policies)) in Sp as [p Sp]; [|intros y I; apply reads_ptr; intros _; apply reads_policies; exact (plain_member _ _ _ P I)].
  apply (says_from (dec_ptr dec_constraints)) in Sc as [c Sc]; [|intros y I; apply reads_ptr; intros _; apply reads_constraints].
  apply marks_says in Stm as [tm Stm].
  apply (says_from dec_issuers) in Sti as [ti Sti]; [|intros y I; apply reads_map; intros o kv _ _; apply reads_issuer].
  apply (says_from (dec_owners kc)) in Sto as [to_ Sto]; [|intros y I; apply reads_map; intros o kv _ _; apply reads_owner].
  assert (D : decode (statement_fields kc) j =
    Ok ([SStr (st_iss s); SStr (st_sub s); STime (st_iat s); STime (st_exp s); SKeys k; SStr aud; SNames h; SMeta m; SPol p; SCons c;
         SNames cr; SNames pc; SMarks tm; SIssuers ti; SOwners to_; SStr src; SStr anc], others (tags (statement_fields kc)) j)).
  { apply decode_exact; [exact (statement_distinct kc)|]. split; [exact O|]. split; [|reflexivity]. unfold statement_fields.
    repeat constructor; first [apply words_field | apply value_field]; eauto. }
  unfold dec_statement. unfold decode in D. rewrite D. cbn [bind]. eauto.
Qed.

Theorem parsed_says parse kc jwt s : parse_statement parse kc jwt = Ok s ->
  exists j, parse jwt = Some ("entity-statement+jwt", j) /\ st_jwt s = jwt /\ (plain j -> statement_says kc j s).
Proof.
  unfold parse_statement. destruct (parse jwt) as [[typ j]|]; [|discriminate].
  destruct (String.eqb_spec typ "entity-statement+jwt") as [->|]; [|discriminate]. cbn [negb]. intros H. exists j. split; [reflexivity|].
  split; [apply (statement_basics _ _ _ _ H)|]. intros P. now apply (statement_read _ jwt _ _ P).
Qed.
Theorem said_parsed parse kc jwt j s : parse jwt = Some ("entity-statement+jwt", j) -> plain j -> statement_says kc j s ->
  exists s', parse_statement parse kc jwt = Ok s'.
Proof.
  intros E P S. unfold parse_statement. rewrite E. rewrite String.eqb_refl. cbn [negb]. exact (statement_readable kc jwt j s P S).
Qed.

(** ** Resolve responses *)
Lemma reads_messages jws x : reads (fun x => o <- dec_messages jws x ;; Ok (items o)) (jwt_list jws) x.
Proof.
  unfold reads, dec_messages, jwt_list. split.
  - intros l H. apply bind_ok in H as (o & D & [= <-]). apply bind_ok in D as (o' & D & E).
    destruct (forallb jws (items o')) eqn:F; [|discriminate]. injection E as <-. split; [apply items_means; now apply reads_names|].
    rewrite forallb_forall in F. exact F.
  - intros (l & (o & T & ->) & F). destruct (proj2 (reads_names x)) as [b D]; [eauto|]. rewrite D. cbn [bind].
    assert (E : forallb jws (items b) = true).
    { apply forallb_forall. intros t I. apply F. assert (T' := proj1 (reads_names x) _ D).
      destruct b as [b|], o as [o|]; cbn [items text_list] in *; try destruct I; subst.
      - destruct T as (xs & -> & F1). destruct T' as (ys & [= <-] & F2). clear -F1 F2 I.
        assert (b = o); [|now subst]. clear I. revert o F1. induction F2 as [|y s ys ss H F2 IH]; intros o F1; inversion F1; subst; [reflexivity|].
        f_equal; [|now apply IH]. destruct H as [-> | [-> ->]], H2 as [E | [E ->]]; congruence.
      - destruct T' as (ys & E & _). discriminate E. }
    rewrite E. cbn. eauto.
Qed.
Lemma says_after {A B} (f : A -> B) (dec : json -> res A) zero j t a :
  says (yields dec) zero j t a -> says (yields (fun x => o <- dec x ;; Ok (f o))) (f zero) j t (f a).
Proof.
  intros [H E]. unfold yields in *. split; [intros x I; destruct (H x I) as [b D]; rewrite D; cbn; eauto|].
  destruct (rev (members t j)); [now subst|]. now rewrite E.
Qed.
Lemma after_says {A B} (f : A -> B) (dec : json -> res A) zero j t b :
  says (yields (fun x => o <- dec x ;; Ok (f o))) (f zero) j t b -> exists a, says (yields dec) zero j t a.
Proof.
  intros [H E]. unfold yields in *. assert (K : forall x, In x (members t j) -> exists a, dec x = Ok a).
  { intros x I. destruct (H x I) as [c D]. apply bind_ok in D as (a & D & _). eauto. }
  unfold says. destruct (rev (members t j)) as [|x r] eqn:V; [exists zero; auto|].
  destruct (K x) as [a D]; [apply in_rev; rewrite V; now left|]. exists a. auto.
Qed.
Theorem response_read jws j p : plain j -> dec_response jws j = Ok p -> response_says jws j p.
Proof.
  intros P H. unfold dec_response in H. fold (decode (response_fields jws) j) in H. apply bind_ok in H as ([vs ex] & D & [= <-]).
  apply decode_exact in D as (O & F & ->); [|exact (response_distinct jws)]. unfold response_fields in F. sfields.
  constructor; cbn [pl_metadata pl_marks pl_chain snth nth sv_meta sv_marks sv_names]; [exact O| | |].
  - eapply says_to; [|eassumption]. intros y I. apply reads_ptr. intros _. apply reads_metadata. exact (plain_member _ _ _ P I).
  - eapply says_to; [|eassumption]. intros y _. apply reads_infos.
  - match goal with H : says (yields (dec_messages _)) _ _ _ _ |- _ => apply (says_after items) in H; revert H end.
    apply says_to. intros y _. apply reads_messages.
Qed.
Theorem response_readable jws j p : plain j -> response_says jws j p -> exists p', dec_response jws j = Ok p'.
Proof.
  intros P [O Sm St Sc].
  apply (says_from (dec_ptr dec_metadata)) in Sm as [m Sm]; [|intros y I; apply reads_ptr; intros _; apply reads_metadata; exact (plain_member _ _ _ P I)].
  apply (says_from dec_infos) in St as [t St]; [|intros y _; apply reads_infos].
  apply (says_from (fun x => o <- dec_messages jws x ;; Ok (items o))) in Sc as [l Sc]; [|intros y _; apply reads_messages].
  apply (after_says items (dec_messages jws) None) in Sc as [c Sc].
  assert (D : decode (response_fields jws) j = Ok ([SMeta m; SMarks t; SNames c], others (tags (response_fields jws)) j)).
  { apply decode_exact; [exact (response_distinct jws)|]. split; [exact O|]. split; [|reflexivity]. unfold response_fields.
    repeat constructor; apply value_field; eauto. }
  unfold dec_response. unfold decode in D. rewrite D. cbn [bind]. eauto.
Qed.
