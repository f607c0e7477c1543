(** Lemmas about Encode.v. *)
From Coq Require Import QArith Qround Lia.
From Verif Require Import Base BaseFacts GoVal Policy Schema Metadata MetadataFacts SpecMetadata Chain FloatTime SpecTime TimeFacts FloatFacts Json SpecJson JsonFacts TrustMark Leaf Config SpecConfig ConfigFacts.
From Verif Require Import SpecDecode Statement SpecStatement StatementFacts StatementLaws Encode SpecEncode.
From Verif Require Import GoVal.
Local Open Scope nat_scope.
Local Open Scope string_scope.

Lemma floor_int z : Qfloor (inject_Z z) = z. Proof. apply Qfloor_Z. Qed.

Lemma last_map_id {A} (o : smap A) : NoDup (keys o) -> last_map o = o.
Proof.
  unfold last_map. intros N.
  assert (G : forall (x a : smap A), NoDup (keys a ++ keys x) -> fold_left (fun m kv => insert (fst kv) (snd kv) m) x a = (a ++ x)%list).
  { induction x as [|[k v] x IH]; intros a Na; cbn [fold_left fst snd]; [now rewrite app_nil_r|].
    cbn [keys map fst] in Na. rewrite insert_app; [|apply lookup_None; apply NoDup_remove_2 in Na; intros I; apply Na; apply in_or_app; now left].
    rewrite IH; [now rewrite <- app_assoc|]. unfold keys in *. rewrite map_app. cbn [map fst]. now rewrite <- app_assoc. }
  apply (G o []). exact N.
Qed.

(** ** Values *)
Fixpoint any_back (v : gval) : proper v -> any_of (any_json v) = as_read v.
Proof.
  intros P. destruct v as [|b|z|z|s|[w|]|t n kv|t n l]; cbn [any_json any_of as_read]; try reflexivity.
  - now rewrite floor_int.
  - now rewrite floor_int.
  - apply any_back. now inversion P.
  - destruct n; [reflexivity|]. cbn [any_of]. rewrite map_map. cbn [fst snd]. inversion P as [| | | | | | |t' n' kv' N F|]; subst.
    assert (E : map (fun x : string * gval => (fst x, any_of (any_json (snd x)))) kv = map (fun x => (fst x, as_read (snd x))) kv).
    { clear N P. induction kv as [|[k w] kv IH]; cbn [map fst snd]; [reflexivity|]. inversion F; subst. rewrite (any_back w) by assumption. now rewrite IH. }
    rewrite E, last_map_id; [reflexivity|]. now rewrite (keys_map as_read).
  - destruct n; [reflexivity|]. cbn [any_of]. rewrite map_map. inversion P as [| | | | | | | |t' n' l' F]; subst. f_equal.
    clear P. induction l as [|w l IH]; cbn [map]; [reflexivity|]. inversion F; subst. rewrite (any_back w) by assumption. now rewrite IH.
Qed.

(** decode_value on what was written for a value of the type. *)
Lemma value_back t : forall v, of_type t v -> decode_value t (any_of (any_json v)) = Ok v.
Proof.
  induction t as [| | | | | |t IH|t IH]; intros v F; cbn [of_type] in F; cbn [decode_value].
  - destruct F as [P E]. now rewrite any_back, E.
  - destruct F as [b ->]. reflexivity.
  - destruct F as [z ->]. cbn [any_json any_of]. now rewrite floor_int.
  - destruct F as [z ->]. cbn [any_json any_of]. now rewrite floor_int.
  - destruct F as [s ->]. reflexivity.
  - destruct F as [-> | (kv & -> & P & E)]; [reflexivity|]. change (any_json (VJwks (Some (VMap TAny false kv)))) with (any_json (VMap TAny false kv)).
    rewrite any_back, E by exact P. reflexivity.
  - destruct F as [-> | (kv & -> & N & F)]; [reflexivity|]. cbn [any_json any_of]. rewrite map_map. cbn [fst snd].
    rewrite last_map_id by (now rewrite (keys_map (fun w => any_of (any_json w)))).
    assert (M : map_res (fun x : string * gval => y <- decode_value t (snd x);; Ok (fst x, y)) (map (fun x => (fst x, any_of (any_json (snd x)))) kv) = Ok kv).
    { clear N. induction kv as [|[k w] kv IHk]; [reflexivity|]. cbn [map map_res fst snd]. rewrite (IH w) by (apply (F k); now left). cbn [bind].
      rewrite IHk; [reflexivity|]. intros k' w' I. apply (F k'). now right. }
    now rewrite M.
  - destruct F as [-> | (l & -> & F)]; [reflexivity|]. cbn [any_json any_of]. rewrite map_map.
    assert (M : map_res (decode_value t) (map (fun x => any_of (any_json x)) l) = Ok l).
    { induction l as [|w l IHl]; [reflexivity|]. cbn [map map_res]. rewrite (IH w) by (apply F; now left). cbn [bind].
      rewrite IHl; [reflexivity|]. intros w' I. apply F. now right. }
    now rewrite M.
Qed.

Lemma of_type_null t v : t <> TAny -> of_type t v -> (any_json v = JNull <-> no_pointer v).
Proof.
  intros Na F. unfold no_pointer. destruct t; cbn [of_type] in F; [contradiction| | | | | | |].
  - destruct F as [b ->]. cbn. split; [discriminate|]. intros [E|[[t E]|[t E]]]; discriminate.
  - destruct F as [b ->]. cbn. split; [discriminate|]. intros [E|[[t E]|[t E]]]; discriminate.
  - destruct F as [b ->]. cbn. split; [discriminate|]. intros [E|[[t E]|[t E]]]; discriminate.
  - destruct F as [b ->]. cbn. split; [discriminate|]. intros [E|[[t E]|[t E]]]; discriminate.
  - destruct F as [-> | (kv & -> & _)]; cbn; [tauto|]. split; [discriminate|]. intros [E|[[t E]|[t E]]]; discriminate.
  - destruct F as [-> | (kv & -> & _)]; cbn; [split; eauto|]. split; [discriminate|]. intros [E|[[t' E]|[t' E]]]; discriminate.
  - destruct F as [-> | (kv & -> & _)]; cbn; [split; eauto|]. split; [discriminate|]. intros [E|[[t' E]|[t' E]]]; discriminate.
Qed.
Lemma of_type_blank t v : t <> TAny -> of_type t v -> (go_empty v = true <-> blank v).
Proof.
  intros Na F. unfold blank. destruct t; cbn [of_type] in F; [contradiction| | | | | | |].
  - destruct F as [[] ->]; cbn; split; auto; try discriminate.
    intros [E|[E|[E|[E|[E|[(t & n & E)|(t & n & E)]]]]]]; discriminate.
  - destruct F as [z ->]. cbn. rewrite Z.eqb_eq. split; [intros ->; auto|].
    intros [E|[E|[E|[E|[E|[(t & n & E)|(t & n & E)]]]]]]; try discriminate. now injection E.
  - destruct F as [z ->]. cbn. rewrite Z.eqb_eq. split; [intros ->; auto|].
    intros [E|[E|[E|[E|[E|[(t & n & E)|(t & n & E)]]]]]]; try discriminate. now injection E.
  - destruct F as [s ->]. cbn. rewrite String.eqb_eq. split; [intros ->; auto|].
    intros [E|[E|[E|[E|[E|[(t & n & E)|(t & n & E)]]]]]]; try discriminate. now injection E.
  - destruct F as [-> | (kv & -> & _)]; cbn; [split; auto 8|]. split; [discriminate|].
    intros [E|[E|[E|[E|[E|[(t & n & E)|(t & n & E)]]]]]]; discriminate.
  - destruct F as [-> | (kv & -> & _)]; cbn; [split; eauto 12|]. destruct kv; [split; eauto 12|]. split; [discriminate|].
    intros [E|[E|[E|[E|[E|[(t' & n & E)|(t' & n & E)]]]]]]; discriminate.
  - destruct F as [-> | (kv & -> & _)]; cbn; [split; eauto 12|]. destruct kv; [split; eauto 12|]. split; [discriminate|].
    intros [E|[E|[E|[E|[E|[(t' & n & E)|(t' & n & E)]]]]]]; discriminate.
Qed.
Lemma of_type_omitted t v : t <> TAny -> of_type t v -> go_empty v = true -> same_attr v (zero_of t).
Proof.
  intros Na F E. unfold same_attr. destruct t; cbn [of_type] in F; [contradiction| | | | | | |]; cbn [zero_of].
  - destruct F as [[] ->]; [discriminate|auto].
  - destruct F as [z ->]. apply Z.eqb_eq in E. subst. auto.
  - destruct F as [z ->]. apply Z.eqb_eq in E. subst. auto.
  - destruct F as [z ->]. apply String.eqb_eq in E. subst. auto.
  - destruct F as [-> | (kv & -> & _)]; [auto|discriminate].
  - destruct F as [-> | (kv & -> & _)]; [auto|]. destruct kv; [|discriminate]. right. right. eauto.
  - destruct F as [-> | (kv & -> & _)]; [auto|]. destruct kv; [|discriminate]. right. left. eauto.
Qed.

(** ** Typed metadata *)
Lemma extra_json_keys m : keys (map (fun kv => (fst kv, any_json (snd kv))) (extra_value m)) = keys (extra_value m).
Proof. apply (keys_map any_json). Qed.

Lemma enc_row_keys l k : In k (keys (flat_map enc_row l)) -> exists r v, In (r, v) l /\ fr_tag r = k /\ fr_tag r <> "-".
Proof.
  unfold keys. rewrite in_map_iff. intros ([k' j] & <- & I). apply in_flat_map in I as ([r v] & I & J). cbn [enc_row] in J.
  destruct (String.eqb_spec (fr_tag r) "-"); [destruct J|]. destruct (_ && _)%bool; [destruct J|]. destruct J as [[= <- <-]|[]]. eauto.
Qed.
Lemma enc_row_nodup l : NoDup (map fr_tag (map fst l)) -> NoDup (keys (flat_map enc_row l)).
Proof.
  induction l as [|[r v] l IH]; cbn [map fst flat_map]; intros N; [constructor|]. inversion N as [|? ? Nr N']; subst. cbn [enc_row].
  destruct (String.eqb (fr_tag r) "-"); [now apply IH|]. destruct (_ && _)%bool; [now apply IH|]. cbn [app keys map fst]. constructor; [|now apply IH].
  intros I. apply enc_row_keys in I as (r' & v' & I & E & _). apply Nr. rewrite <- E. apply in_map. change r' with (fst (r', v')). now apply in_map.
Qed.

Definition entity_members (m : emeta) : list (string * json) :=
  (flat_map enc_row (em_fields m) ++ map (fun kv => (fst kv, any_json (snd kv))) (extra_value m))%list.

Lemma enc_entity_members sch m : entity_ok sch m -> enc_entity m = JObj (entity_members m).
Proof.
  intros [R V [N X] P]. unfold enc_entity, entity_members. f_equal. apply overlay_app; rewrite extra_json_keys; [exact N|].
  intros k I J. apply enc_row_keys in J as (r & v & J & <- & _). apply (X _ I). apply in_map. rewrite <- R. apply in_map. change r with (fst (r, v)). now apply in_map.
Qed.

(** The members with the name of a field. *)
Lemma entity_stated sch m r v : In sch entity_schemas -> entity_ok sch m -> In (r, v) (em_fields m) -> fr_tag r <> "-" ->
  members (fr_tag r) (JObj (entity_members m)) = if (fr_omitempty r && go_empty v)%bool then [] else [any_json v].
Proof.
  intros Hs [R V [N X] P] I Nt. unfold entity_members. cbn [members]. rewrite filter_app, map_app.
  assert (Z : filter (fun kv : string * json => String.eqb (fold_name (fst kv)) (fold_name (fr_tag r)))
                (map (fun kv => (fst kv, any_json (snd kv))) (extra_value m)) = []).
  { assert (H : forall k, In k (keys (extra_value m)) -> fold_name k <> fold_name (fr_tag r)).
    { intros k K E. apply (X k K). rewrite E. apply in_map. apply in_map. rewrite <- R. change r with (fst (r, v)). now apply in_map. }
    clear - H. induction (extra_value m) as [|[k w] l IH]; [reflexivity|]. cbn [map filter fst].
    destruct (String.eqb_spec (fold_name k) (fold_name (fr_tag r))) as [E|]; [exfalso; apply (H k); [now left|exact E]|].
    apply IH. intros k' K. apply H. now right. }
  rewrite Z. cbn [map]. rewrite app_nil_r.
  assert (D : forall r', In r' sch -> fold_name (fr_tag r') = fold_name (fr_tag r) -> fr_tag r' = fr_tag r).
  { intros r' H E. symmetry. apply (folds_distinct sch r r' Hs); auto. rewrite <- R. change r with (fst (r, v)). now apply in_map. }
  pose proof (tags_nodup sch Hs) as Nd. rewrite <- R in Nd, D. clear - I Nt D Nd.
  assert (G : forall l : list (frow * gval), (forall r' v', In (r', v') l -> fold_name (fr_tag r') <> fold_name (fr_tag r)) ->
    filter (fun kv : string * json => String.eqb (fold_name (fst kv)) (fold_name (fr_tag r))) (flat_map enc_row l) = []).
  { induction l as [|[r' v'] l IH]; intros H; [reflexivity|]. cbn [flat_map]. rewrite filter_app, IH by (intros r2 v2 I2; apply (H r2 v2); now right).
    rewrite app_nil_r. cbn [enc_row]. destruct (String.eqb (fr_tag r') "-"); [reflexivity|]. destruct (_ && _)%bool; [reflexivity|]. cbn [filter fst].
    destruct (String.eqb_spec (fold_name (fr_tag r')) (fold_name (fr_tag r))) as [E|]; [|reflexivity]. exfalso. apply (H r' v'); [now left|exact E]. }
  apply in_split in I as (l1 & l2 & E). rewrite E in Nd, D |- *. rewrite !map_app in Nd. cbn [map fst] in Nd. apply NoDup_remove_2 in Nd.
  rewrite flat_map_app. cbn [flat_map]. rewrite !filter_app, (G l1), (G l2).
  - cbn [app]. rewrite app_nil_r. cbn [enc_row]. destruct (String.eqb_spec (fr_tag r) "-"); [contradiction|].
    destruct (_ && _)%bool; [reflexivity|]. cbn [filter fst]. now rewrite String.eqb_refl.
  - intros r' v' I' E'. apply Nd. apply in_or_app. right. rewrite <- (D r'); [|apply in_map_iff; exists (r', v'); split; [reflexivity|apply in_or_app; right; now right]|exact E'].
    apply in_map. change r' with (fst (r', v')). now apply in_map.
  - intros r' v' I' E'. apply Nd. apply in_or_app. left. rewrite <- (D r'); [|apply in_map_iff; exists (r', v'); split; [reflexivity|apply in_or_app; now left]|exact E'].
    apply in_map. change r' with (fst (r', v')). now apply in_map.
Qed.

Lemma entity_claims sch m k : In sch entity_schemas -> entity_ok sch m -> (In k (map fr_tag sch) -> k = "-") ->
  lookup k (rev (entity_members m)) = option_map any_json (lookup k (extra_value m)).
Proof.
  intros Hs [R V [N X] P] Nk. rewrite lookup_rev_NoDup.
  - unfold entity_members. rewrite <- (lookup_map any_json). generalize (map (fun kv => (fst kv, any_json (snd kv))) (extra_value m)). intros x.
    assert (L : lookup k (flat_map enc_row (em_fields m)) = None).
    { apply lookup_None. intros I. apply enc_row_keys in I as (r & v & I & <- & Nt). apply Nt, Nk. apply in_map. rewrite <- R. change r with (fst (r, v)). now apply in_map. }
    induction (flat_map enc_row (em_fields m)) as [|[a b] l IH]; [reflexivity|]. cbn [app lookup] in *. destruct (String.eqb k a); [discriminate|]. now apply IH.
  - unfold entity_members, keys. rewrite map_app. apply NoDup_app_intro.
    + apply enc_row_nodup. rewrite R. now apply tags_nodup.
    + fold (keys (map (fun kv => (fst kv, any_json (snd kv))) (extra_value m))). now rewrite extra_json_keys.
    + intros x I J. fold (keys (map (fun kv => (fst kv, any_json (snd kv))) (extra_value m))) in J. rewrite extra_json_keys in J.
      apply enc_row_keys in I as (r & v & I & <- & _). apply (X _ J). apply in_map. apply in_map. rewrite <- R. change r with (fst (r, v)). now apply in_map.
Qed.

Lemma names_apart sch r : In sch entity_schemas -> In r sch -> In (fr_name r) (map fr_tag sch) -> False.
Proof.
  assert (B : forallb (fun sch => forallb (fun r => negb (mem (fr_name r) (map fr_tag sch))) sch) entity_schemas = true) by (vm_compute; reflexivity).
  intros Hs Hr I. rewrite forallb_forall in B. specialize (B _ Hs). rewrite forallb_forall in B. specialize (B _ Hr). apply negb_true_iff in B.
  apply mem_nIn in B. contradiction.
Qed.
Lemma row_value sch m r : map fst (em_fields m) = sch -> In r sch -> exists v, In (r, v) (em_fields m).
Proof. intros <- I. apply in_map_iff in I as ([r' v] & <- & I). eauto. Qed.

Theorem entity_back sch m : In sch entity_schemas -> entity_ok sch m -> exists m', dec_entity sch (enc_entity m) = Ok m' /\ entity_read sch m m'.
Proof.
  intros Hs Ho. rewrite (enc_entity_members sch m Ho). set (o := entity_members m).
  assert (NA : forall r, In r sch -> fr_ty r <> TAny).
  { intros r Hr. pose proof (schemas_ok _ Hs) as RO. rewrite Forall_forall in RO. destruct (RO _ Hr) as [_ NA]. exact NA. }
  assert (D : forall r v, In (r, v) (em_fields m) -> fr_tag r <> "-" -> In r sch ->
    exists v' s, decode_field (object_of sch o) r = Ok (v', s) /\ same_attr v v').
  { intros r v I Nt Hr. unfold decode_field. destruct (String.eqb_spec (fr_tag r) "-"); [contradiction|].
    unfold object_of. rewrite lookup_last_mapped, (folded_field sch o r Hs Hr Nt).
    unfold o. rewrite (entity_stated sch m r v Hs Ho I Nt). pose proof (eo_values _ _ Ho r v I Nt) as F.
    destruct (fr_omitempty r && go_empty v)%bool eqn:C; cbn [rev hd_error option_map app].
    - apply andb_prop in C as [_ C]. eexists _, _. split; [reflexivity|]. apply of_type_omitted; auto.
    - rewrite (value_back _ _ F). cbn [bind]. eexists _, _. split; [reflexivity|]. now left. }
  destruct (map_res_reads (decode_field (object_of sch o)) sch) as [vs Ev].
  { intros r Hr. destruct (row_value sch m r (eo_rows _ _ Ho) Hr) as [v I]. destruct (String.eqb_spec (fr_tag r) "-") as [E|Nt].
    - unfold decode_field. rewrite E. cbn. eauto.
    - destruct (D r v I Nt Hr) as (v' & s & E & _). eauto. }
  assert (De : exists m', dec_entity sch (JObj o) = Ok m').
  { cbn [dec_entity]. fold (object_of sch o). unfold decode_meta. rewrite Ev. cbn [bind]. eauto. }
  destruct De as [m' De]. exists m'. split; [exact De|].
  pose proof De as De'. cbn [dec_entity] in De'. fold (object_of sch o) in De'. apply decode_meta_shape in De' as (vs' & Hd & ->).
  constructor.
  - cbn [em_fields]. rewrite map_map. rewrite <- (rows_fst sch _ vs' Hd) at 2. apply map_ext. now intros [r [v s]].
  - intros r v I Nt. assert (Hr : In r sch) by (rewrite <- (eo_rows _ _ Ho); change r with (fst (r, v)); now apply in_map).
    destruct (find_shape sch o vs' (flat_map (fun rv => if c_cond sch (object_of sch o) rv then [fr_name (fst rv)] else []) (combine sch vs') ++ keys (c_ex sch (object_of sch o)))%list r Hs Hd Hr) as (w & s & Dw & _ & F).
    destruct (D r v I Nt Hr) as (v' & s' & E & S). rewrite E in Dw. injection Dw as <- <-. exists v'. split; [|exact S].
    unfold em_tag. rewrite F. cbn [c_field snd]. now destruct (String.eqb_spec (fr_tag r) "-").
  - intros r v I Nt Nx. assert (Hr : In r sch) by (rewrite <- (eo_rows _ _ Ho); change r with (fst (r, v)); now apply in_map).
    pose proof (eo_values _ _ Ho r v I Nt) as F. pose proof (NA r Hr) as Na.
    rewrite (set_says sch (JObj o) _ r Hs De Hr Nt).
    + unfold stated, o. rewrite (entity_stated sch m r v Hs Ho I Nt). rewrite <- (of_type_blank _ _ Na F), <- (of_type_null _ _ Na F).
      destruct (fr_omitempty r), (go_empty v); cbn [andb last]; intuition congruence.
    + cbn [claim]. unfold o. rewrite (entity_claims sch m _ Hs Ho).
      * apply lookup_None in Nx. now rewrite Nx.
      * intros Ht. destruct (names_apart sch r Hs Hr Ht).
  - rewrite (cached_extra sch _ vs' Hs Hd). unfold c_ex, extra_of. apply keys_filter. apply last_map_NoDup.
  - intros k. rewrite (cached_extra sch _ vs' Hs Hd). unfold c_ex, extra_of.
    rewrite (lookup_filter (fun k => negb (mem k (filter (fun t => negb (String.eqb t "-")) (map fr_tag sch))))).
    destruct (mem k (map fr_tag sch)) eqn:M.
    + apply mem_In in M. assert (L : lookup k (extra_value m) = None).
      { apply lookup_None. intros K. apply (proj2 (eo_extra _ _ Ho) k K). now apply in_map. }
      rewrite L. cbn [option_map]. destruct (String.eqb_spec k "-") as [->|Nk].
      * rewrite (proj2 (mem_nIn _ _)) by (intros I; apply filter_In in I as [_ I]; discriminate). cbn [negb]. unfold object_of.
        rewrite lookup_last_mapped, (folded_other sch o "-") by (apply mem_nIn; intros I; apply filter_In in I as [_ I]; discriminate).
        unfold o. rewrite (entity_claims sch m "-" Hs Ho) by auto. now rewrite L.
      * assert (Mf : mem k (filter (fun t => negb (String.eqb t "-")) (map fr_tag sch)) = true).
        { apply mem_In. apply filter_In. split; [exact M|]. destruct (String.eqb_spec k "-"); [contradiction|reflexivity]. }
        now rewrite Mf.
    + assert (Mf : mem k (filter (fun t => negb (String.eqb t "-")) (map fr_tag sch)) = false).
      { apply mem_nIn. apply mem_nIn in M. intros I. apply M. now apply filter_In in I as [I _]. }
      rewrite Mf. cbn [negb]. unfold object_of. rewrite lookup_last_mapped, (folded_other _ _ _ Mf). unfold o.
      rewrite (entity_claims sch m k Hs Ho) by (intros I; apply mem_In in I; congruence).
      destruct (lookup k (extra_value m)) as [w|] eqn:L; cbn [option_map]; [|reflexivity]. f_equal. apply any_back.
      pose proof (eo_proper _ _ Ho) as P. rewrite Forall_forall in P. apply lookup_In in L. exact (P _ L).
Qed.

(** ** Structs *)
Lemma decode_with_enc enc fs j : decode (map (with_enc enc) fs) j = decode fs j.
Proof.
  assert (T : tags (map (with_enc enc) fs) = tags fs) by (unfold tags; rewrite map_map; apply map_ext; reflexivity).
  assert (Z : zeros (map (with_enc enc) fs) = zeros fs) by (unfold zeros; rewrite map_map; apply map_ext; reflexivity).
  assert (D : forall o vs, dec_fields (map (with_enc enc) fs) o vs = dec_fields fs o vs).
  { induction o as [|[k x] o IH]; intros vs; cbn [dec_fields]; [reflexivity|]. rewrite T. destruct (field_of (tags fs) k) as [i|]; [|apply IH].
    rewrite nth_error_map. destruct (nth_error fs i) as [f|]; cbn [option_map]; [|apply IH]. destruct (nth_error vs i) as [v|]; [|apply IH].
    cbn [with_enc f_codec c_dec]. destruct (c_dec (f_codec f) v x); cbn [bind]; auto. }
  unfold decode, unmarshal_with_extra. rewrite Z. destruct j; try reflexivity. rewrite D, T. reflexivity.
Qed.
Lemma marshal_back enc fs vs vs' extra : distinct_names fs -> becomes_all (map (with_enc enc) fs) vs vs' -> apart (tags fs) extra ->
  decode fs (marshal (map (with_enc enc) fs) vs extra) = Ok (vs', extra).
Proof.
  assert (T : tags (map (with_enc enc) fs) = tags fs) by (unfold tags; rewrite map_map; apply map_ext; reflexivity).
  intros D B [N X]. rewrite <- (decode_with_enc enc). apply marshal_becomes; auto.
  - unfold distinct_names. now rewrite T.
  - split; [exact N|]. now rewrite T.
Qed.
Lemma unmarshal_back enc fs vs vs' : distinct_names fs -> becomes_all (map (with_enc enc) fs) vs vs' ->
  unmarshal fs (marshal (map (with_enc enc) fs) vs []) = Ok vs'.
Proof.
  intros D B. assert (E : decode fs (marshal (map (with_enc enc) fs) vs []) = Ok (vs', [])).
  { apply marshal_back; auto. split; [constructor|intros k []]. }
  unfold decode, unmarshal_with_extra, marshal in E. unfold unmarshal, marshal.
  apply bind_ok in E as (r & E & F). now injection F as <-.
Qed.

(** ** Metadata *)
Lemma entity_becomes t sch x : In sch entity_schemas -> given (entity_ok sch) x ->
  exists x', both (entity_read sch) x x' /\
    becomes (with_enc enc_entity_field (JField t true (value_codec SEntity None (dec_ptr (dec_entity sch))))) (SEntity x) (SEntity x').
Proof.
  intros Hs G. destruct x as [m|].
  - destruct (entity_back sch m Hs (G m eq_refl)) as (m' & D & R). exists (Some m'). split; [exact R|].
    unfold becomes. cbn [with_enc f_omit f_codec c_empty empty_sval andb c_dec c_zero c_enc value_codec enc_entity_field sv_entity enc_opt].
    unfold dec_ptr. rewrite D. unfold enc_entity. reflexivity.
  - exists None. split; [exact I|]. reflexivity.
Qed.

Theorem metadata_back m : metadata_ok m -> exists m', dec_metadata (enc_metadata m) = Ok m' /\ metadata_read m m'.
Proof.
  intros [O1 O2 O3 O4 O5 O6 X P].
  destruct (entity_becomes "openid_provider" op_schema _ ltac:(cbn; tauto) O1) as (a1 & R1 & B1).
  destruct (entity_becomes "openid_relying_party" rp_schema _ ltac:(cbn; tauto) O2) as (a2 & R2 & B2).
  destruct (entity_becomes "oauth_authorization_server" op_schema _ ltac:(cbn; tauto) O3) as (a3 & R3 & B3).
  destruct (entity_becomes "oauth_client" rp_schema _ ltac:(cbn; tauto) O4) as (a4 & R4 & B4).
  destruct (entity_becomes "oauth_resource" pr_schema _ ltac:(cbn; tauto) O5) as (a5 & R5 & B5).
  destruct (entity_becomes "federation_entity" fe_schema _ ltac:(cbn; tauto) O6) as (a6 & R6 & B6).
  exists (Metadata a1 a2 a3 a4 a5 a6 (map_read (md_extra m))). split; [|constructor; cbn; assumption || reflexivity].
  unfold dec_metadata, enc_metadata. fold (decode metadata_fields (marshal (map (with_enc enc_entity_field) metadata_fields)
    [SEntity (md_op m); SEntity (md_rp m); SEntity (md_as m); SEntity (md_oc m); SEntity (md_pr m); SEntity (md_fe m)]
    (map (fun kv => (fst kv, any_json (snd kv))) (md_extra m)))).
  rewrite (marshal_back _ metadata_fields _ [SEntity a1; SEntity a2; SEntity a3; SEntity a4; SEntity a5; SEntity a6]).
  - cbn [bind snth nth sv_entity]. f_equal. f_equal. rewrite map_map. cbn [fst snd]. unfold map_read. apply map_ext_in. intros [k v] I. cbn [fst snd].
    rewrite Forall_forall in P. specialize (P _ I). cbn [snd] in P. now rewrite any_back.
  - exact metadata_distinct.
  - unfold metadata_fields. cbn [map fst snd]. repeat (constructor; [assumption|]). constructor.
  - destruct X as [N X]. split; [now rewrite (keys_map any_json)|]. rewrite (keys_map any_json). exact X.
Qed.

(** ** Policies *)
Definition json_entries (m : smap entry) : smap (option (smap json)) :=
  map (fun a => (fst a, Some (map (fun kv => (fst kv, any_json (snd kv))) (snd a)))) m.
Lemma policy_becomes t p : gpolicy_ok p -> exists p', becomes (JField t true policy_codec) (json_policy p) p' /\ policy_of p' = policy_read p.
Proof.
  intros G. destruct p as [[|a m]|].
  - exists None. split; reflexivity.
  - specialize (G _ eq_refl) as [N F]. exists (Some (json_entries (a :: m))). split.
    + unfold becomes. cbn [f_omit f_codec c_empty policy_codec json_policy option_map map andb c_dec c_zero c_enc]. unfold dec_policy, enc_policy.
      fold (json_entries (a :: m)). change (_ :: map _ m) with (json_entries (a :: m)).
      rewrite dec_entries_map; [reflexivity| |].
      * cbn [keys map app]. unfold json_entries. fold (keys (map (fun a0 : string * entry => (fst a0, Some (map (fun kv => (fst kv, any_json (snd kv))) (snd a0)))) (a :: m))).
        rewrite (keys_map (fun e : entry => Some (map (fun kv => (fst kv, any_json (snd kv))) e))). exact N.
      * apply Forall_forall. intros [k e] I. unfold json_entries in I. apply in_map_iff in I as ([k' e'] & [= <- <-] & I). cbn [snd entry_ok].
        rewrite Forall_forall in F. destruct (F _ I) as [Ne _]. now rewrite (keys_map any_json).
    + unfold policy_of. cbn [option_map policy_read]. f_equal. unfold json_entries. rewrite map_map. cbn [fst snd]. apply map_ext_in. intros [k e] I. cbn [fst snd entry_of].
      f_equal. rewrite map_map. cbn [fst snd]. apply map_ext_in. intros [k' v] I'. cbn [fst snd]. rewrite Forall_forall in F. destruct (F _ I) as [_ Fp].
      rewrite Forall_forall in Fp. specialize (Fp _ I'). cbn [snd] in Fp. now rewrite any_back.
  - exists None. split; reflexivity.
Qed.

Theorem policies_back p : policies_ok p -> mp_extra p = [] -> exists p', dec_policies (enc_policies p) = Ok p' /\ policies_read p p'.
Proof.
  intros (G1 & G2 & G3 & G4 & G5 & G6) X.
  destruct (policy_becomes "openid_provider" _ G1) as (p1 & B1 & E1). destruct (policy_becomes "openid_relying_party" _ G2) as (p2 & B2 & E2).
  destruct (policy_becomes "oauth_authorization_server" _ G3) as (p3 & B3 & E3). destruct (policy_becomes "oauth_client" _ G4) as (p4 & B4 & E4).
  destruct (policy_becomes "oauth_resource" _ G5) as (p5 & B5 & E5). destruct (policy_becomes "federation_entity" _ G6) as (p6 & B6 & E6).
  eexists. split; [|unfold policies_read; reflexivity]. unfold dec_policies, enc_policies, unmarshal_policies, marshal_policies. cbn [jp_known jp_extra map]. rewrite X.
  cbn [map]. set (ks := [_; _; _; _; _; _]).
  change (JObj (overlay (enc_fields policies_fields ks) [])) with (marshal policies_fields ks []).
  fold (decode policies_fields (marshal policies_fields ks [])).
  rewrite (marshal_becomes policies_fields ks [p1; p2; p3; p4; p5; p6] []).
  - cbn [bind assert_all jp_known jp_extra nth map]. now rewrite E1, E2, E3, E4, E5, E6.
  - exact policies_distinct.
  - unfold policies_fields, ks. cbn [map]. repeat (constructor; [assumption|]). constructor.
  - split; [constructor|intros k []].
Qed.

(** ** Constraints *)
Lemma names_back l : dec_names (enc_names l) = Ok l.
Proof. destruct l as [l|]; [|reflexivity]. cbn. now rewrite dec_strs_map. Qed.
Lemma names_becomes enc t l : (forall l, enc (SNames l) = enc_names l) -> l <> Some [] ->
  becomes (with_enc enc (JField t true (value_codec SNames None dec_names))) (SNames l) (SNames l).
Proof.
  intros E N. unfold becomes. cbn [with_enc f_omit f_codec c_empty c_dec c_zero c_enc value_codec andb]. destruct l as [[|s l]|]; [contradiction| |reflexivity].
  cbn [empty_sval]. now rewrite E, names_back.
Qed.
Lemma items_becomes enc t l : (forall l, enc (SNames l) = enc_names l) ->
  exists o, items o = l /\ becomes (with_enc enc (JField t true (value_codec SNames None dec_names))) (SNames (Some l)) (SNames o).
Proof.
  intros E. destruct l as [|s l]; [exists None; split; reflexivity|]. exists (Some (s :: l)). split; [reflexivity|]. apply names_becomes; [exact E|discriminate].
Qed.
Lemma int_back z : (- 2 ^ 63 <= z < 2 ^ 63)%Z -> dec_int (JNum (inject_Z z)) = Ok z.
Proof.
  intros H. destruct (proj2 (reads_int (JNum (inject_Z z)))) as [b D].
  { exists z, (inject_Z z). split; [reflexivity|]. split; [reflexivity|exact H]. }
  rewrite D. apply reads_int in D as (q & Hq & E & _). assert (q = inject_Z z) by congruence. subst q. apply (proj1 (inject_Z_injective z b)) in E. congruence.
Qed.
Lemma naming_back n : nc_permitted n <> Some [] -> dec_naming (enc_naming n) = Ok n.
Proof.
  intros N. unfold dec_naming, enc_naming. destruct (items_becomes (fun v => enc_names (sv_names v)) "excluded" (nc_excluded n) ltac:(reflexivity)) as (o & Eo & B).
  rewrite (unmarshal_back _ naming_fields _ [SNames (nc_permitted n); SNames o]).
  - cbn. rewrite Eo. now destruct n.
  - exact naming_distinct.
  - unfold naming_fields. cbn [map]. constructor; [apply names_becomes; [reflexivity|exact N]|]. constructor; [exact B|constructor].
Qed.
Theorem constraints_back c : constraints_ok c -> dec_constraints (enc_constraints c) = Ok c.
Proof.
  intros (T & N & M). unfold dec_constraints, enc_constraints.
  rewrite (unmarshal_back _ constraint_fields _ [SInt (co_max_path c); SNaming (co_naming c); SNames (co_types c)]).
  - cbn. now destruct c.
  - exact constraint_distinct.
  - unfold constraint_fields. cbn [map]. constructor; [|constructor; [|constructor; [apply names_becomes; [reflexivity|exact T]|constructor]]].
    + destruct (co_max_path c) as [z|]; [|reflexivity]. unfold becomes. cbn [with_enc f_omit f_codec c_empty empty_sval c_dec c_zero c_enc value_codec andb enc_constraint_field enc_opt dec_ptr].
      rewrite int_back by exact (M z eq_refl). reflexivity.
    + destruct (co_naming c) as [n|]; [|reflexivity]. unfold becomes. cbn [with_enc f_omit f_codec c_empty empty_sval c_dec c_zero c_enc value_codec andb enc_constraint_field enc_opt].
      pose proof (naming_back n (N n eq_refl)) as D. unfold dec_ptr. rewrite D. unfold enc_naming, marshal. reflexivity.
Qed.

(** ** Trust marks, issuers, owners, keys *)
Lemma keys_back kc k : keys_ok kc k -> dec_keys kc (enc_keys kc k) = Ok k.
Proof. intros G. destruct k as [k|]; [|reflexivity]. destruct (G k eq_refl) as [K L]. now apply keys_json. Qed.
Lemma info_back t j : unmarshal_info (enc_info (Info t j [] None)) (Info "" "" [] None) = Ok (Info t j [] None).
Proof.
  unfold unmarshal_info, enc_info. cbn [ti_type ti_jwt ti_extra].
  change (unmarshal_with_extra mark_info_fields (marshal mark_info_fields [GStr t; GStr j] []) [GStr ""; GStr ""])
    with (decode mark_info_fields (marshal mark_info_fields [GStr t; GStr j] [])).
  rewrite marshal_roundtrip; [reflexivity| | |].
  - apply types_distinct. cbn. tauto.
  - unfold mark_info_fields. repeat (constructor; [apply str_survives|]). constructor.
  - split; [constructor|intros k []].
Qed.
Lemma infos_back l : dec_infos (JArr (map enc_info (map (fun m : string * string => Info (fst m) (snd m) [] None) l))) = Ok (map (fun m => Info (fst m) (snd m) [] None) l).
Proof.
  unfold dec_infos, dec_slice. induction l as [|[t j] l IH]; [reflexivity|]. cbn [map map_res fst snd]. rewrite info_back. cbn [bind]. now rewrite IH.
Qed.
Lemma map_back {A} (dec : json -> res A) (enc : A -> json) (m : smap A) : NoDup (keys m) -> (forall k a, In (k, a) m -> dec (enc a) = Ok a) ->
  dec_map dec (JObj (map (fun kv => (fst kv, enc (snd kv))) m)) = Ok m.
Proof.
  intros N D. cbn [dec_map].
  assert (E : map_res (fun x : string * json => v <- dec (snd x);; Ok (fst x, v)) (map (fun kv => (fst kv, enc (snd kv))) m) = Ok m).
  { clear N. induction m as [|[k a] m IH]; [reflexivity|]. cbn [map map_res fst snd]. rewrite (D k a) by now left. cbn [bind]. rewrite IH; [reflexivity|].
    intros k' a' I. apply (D k'). now right. }
  rewrite E. cbn [bind]. now rewrite last_map_id.
Qed.
Lemma issuers_back m : NoDup (keys m) -> dec_issuers (enc_issuers m) = Ok m.
Proof.
  intros N. unfold dec_issuers, enc_issuers. apply (map_back _ (fun l => JArr (map JStr l))); [exact N|]. intros k l _. cbn [dec_names]. now rewrite dec_strs_map.
Qed.
Lemma owner_back kc o : keys_ok kc (snd o) -> dec_owner kc (JObj [("sub", JStr (fst o)); ("jwks", enc_keys kc (snd o))]) = Ok o.
Proof.
  intros K. unfold dec_owner, unmarshal, owner_fields. cbn [dec_fields tags map f_tag zeros f_codec c_zero text_codec value_codec].
  change (field_of ["sub"; "jwks"] "sub") with (Some 0). change (field_of ["sub"; "jwks"] "jwks") with (Some 1).
  cbn [nth_error f_codec c_dec text_codec value_codec dec_str bind set_nth]. rewrite (keys_back kc _ K). cbn. now destruct o.
Qed.
Lemma owners_back kc m : NoDup (keys m) -> Forall (fun o => keys_ok kc (snd (snd o))) m -> dec_owners kc (enc_owners kc m) = Ok m.
Proof.
  intros N F. unfold dec_owners, enc_owners. apply (map_back _ (fun o : string * jwks => JObj [("sub", JStr (fst o)); ("jwks", enc_keys kc (snd o))])); [exact N|].
  intros k o I. apply owner_back. rewrite Forall_forall in F. exact (F _ I).
Qed.

(** ** Statements *)
Lemma text_becomes enc t om s : (forall s, enc (SStr s) = JStr s) -> becomes (with_enc enc (JField t om text_codec)) (SStr s) (SStr s).
Proof.
  intros E. unfold becomes. cbn [with_enc f_omit f_codec c_empty empty_sval c_dec c_zero c_enc text_codec]. rewrite E.
  destruct om; [|reflexivity]. destruct s; reflexivity.
Qed.
Lemma time_back t : in_range t -> exists t', dec_time (JNum (encode_time t)) = Ok t' /\ time_read t t'.
Proof.
  intros R. eexists. split; [reflexivity|]. split; [now apply time_roundtrip_close|].
  intros (s & -> & H). unfold seconds. now apply seconds_roundtrip.
Qed.

Theorem statement_back kc jwt p : payload_ok kc p -> exists s, dec_statement kc jwt (enc_statement kc p) = Ok s /\ statement_read p s /\ st_jwt s = jwt.
Proof.
  intros [Hi He Hk Hm Hp Hx Hc Hs [Ho Hoo] Hex]. set (c := sp_claims p) in *. unfold enc_statement. fold c.
  set (enc := enc_statement_field kc).
  destruct (items_becomes enc "authority_hints" (st_hints c) ltac:(reflexivity)) as (hs & Eh & Bh).
  destruct (items_becomes enc "crit" (st_crit c) ltac:(reflexivity)) as (cs & Ec & Bc).
  destruct (items_becomes enc "metadata_policy_crit" (st_policy_crit c) ltac:(reflexivity)) as (ps & Ep & Bp).
  assert (Md : exists m', both metadata_read (st_metadata c) m' /\ becomes (with_enc enc (JField "metadata" true (value_codec SMeta None (dec_ptr dec_metadata)))) (SMeta (st_metadata c)) (SMeta m')).
  { destruct (st_metadata c) as [m|]; [|exists None; split; [exact I|reflexivity]]. destruct (metadata_back m (Hm m eq_refl)) as (m' & D & R). exists (Some m').
    split; [exact R|]. unfold becomes. cbn [with_enc f_omit f_codec c_empty empty_sval c_dec c_zero c_enc value_codec andb enc_opt]. unfold enc. cbn [enc_statement_field enc_opt].
    unfold dec_ptr. rewrite D. unfold enc_metadata, marshal. reflexivity. }
  destruct Md as (md & Rm & Bm).
  assert (Pd : exists m', both policies_read (st_policy c) m' /\ becomes (with_enc enc (JField "metadata_policy" true (value_codec SPol None (dec_ptr dec_policies)))) (SPol (st_policy c)) (SPol m')).
  { destruct (st_policy c) as [m|]; [|exists None; split; [exact I|reflexivity]]. destruct (policies_back m (Hp m eq_refl) (Hx m eq_refl)) as (m' & D & R). exists (Some m').
    split; [exact R|]. unfold becomes. cbn [with_enc f_omit f_codec c_empty empty_sval c_dec c_zero c_enc value_codec andb enc_opt]. unfold enc. cbn [enc_statement_field enc_opt].
    unfold dec_ptr. rewrite D. unfold enc_policies, marshal_policies. reflexivity. }
  destruct Pd as (pd & Rp & Bpol).
  assert (Cd : becomes (with_enc enc (JField "constraints" true (value_codec SCons None (dec_ptr dec_constraints)))) (SCons (st_constraints c)) (SCons (st_constraints c))).
  { destruct (st_constraints c) as [m|]; [|reflexivity]. pose proof (constraints_back m (Hc m eq_refl)) as D.
    unfold becomes. cbn [with_enc f_omit f_codec c_empty empty_sval c_dec c_zero c_enc value_codec andb enc_opt]. unfold enc. cbn [enc_statement_field enc_opt].
    unfold dec_ptr. rewrite D. unfold enc_constraints, marshal. reflexivity. }
  set (ms := map (fun m : string * string => Info (fst m) (snd m) [] None) (st_marks c)).
  assert (Bms : becomes (with_enc enc (JField "trust_marks" true (value_codec SMarks [] dec_infos))) (SMarks ms) (SMarks ms)).
  { pose proof (infos_back (st_marks c)) as D. fold ms in D. unfold becomes. cbn [with_enc f_omit f_codec c_empty c_dec c_zero c_enc value_codec andb]. unfold enc. cbn [enc_statement_field].
    destruct ms as [|t ms']; [reflexivity|]. cbn [empty_sval]. now rewrite D. }
  assert (Bis : becomes (with_enc enc (JField "trust_mark_issuers" true (value_codec SIssuers [] dec_issuers))) (SIssuers (st_mark_issuers c)) (SIssuers (st_mark_issuers c))).
  { pose proof (issuers_back _ Hs) as D. unfold becomes. cbn [with_enc f_omit f_codec c_empty c_dec c_zero c_enc value_codec andb]. unfold enc. cbn [enc_statement_field].
    destruct (st_mark_issuers c) as [|t ms']; [reflexivity|]. cbn [empty_sval]. now rewrite D. }
  assert (Bow : becomes (with_enc enc (JField "trust_mark_owners" true (value_codec SOwners [] (dec_owners kc)))) (SOwners (st_mark_owners c)) (SOwners (st_mark_owners c))).
  { pose proof (owners_back kc _ Ho Hoo) as D. unfold becomes. cbn [with_enc f_omit f_codec c_empty c_dec c_zero c_enc value_codec andb]. unfold enc. cbn [enc_statement_field].
    destruct (st_mark_owners c) as [|t ms']; [reflexivity|]. cbn [empty_sval]. now rewrite D. }
  assert (Bt : forall t x, in_range x -> exists x', time_read x x' /\ becomes (with_enc enc (JField t false (value_codec STime zero_time dec_time))) (STime x) (STime x')).
  { intros t x W. destruct (time_back x W) as (x' & D & R). exists x'. split; [exact R|].
    unfold becomes. cbn [with_enc f_omit f_codec c_empty c_dec c_zero c_enc value_codec andb]. unfold enc. cbn [enc_statement_field]. now rewrite D. }
  destruct (Bt "iat" _ Hi) as (ti & Ri & Bi). destruct (Bt "exp" _ He) as (te & Re & Be).
  assert (Bk : becomes (with_enc enc (JField "jwks" false (value_codec SKeys None (dec_keys kc)))) (SKeys (st_jwks c)) (SKeys (st_jwks c))).
  { unfold becomes. cbn [with_enc f_omit f_codec c_empty c_dec c_zero c_enc value_codec andb]. unfold enc. cbn [enc_statement_field]. now rewrite (keys_back _ _ Hk). }
  eexists. split.
  - unfold dec_statement. set (j := marshal _ _ _). fold (decode (statement_fields kc) j). unfold j. fold enc.
    rewrite (marshal_back enc (statement_fields kc) _
      [SStr (st_iss c); SStr (st_sub c); STime ti; STime te; SKeys (st_jwks c); SStr (sp_aud p);
       SNames hs; SMeta md; SPol pd; SCons (st_constraints c); SNames cs; SNames ps; SMarks ms; SIssuers (st_mark_issuers c); SOwners (st_mark_owners c);
       SStr (sp_source p); SStr (sp_anchor p)]).
    + cbn [bind snth nth sv_str sv_time sv_keys sv_names sv_meta sv_pol sv_cons sv_marks sv_issuers sv_owners]. reflexivity.
    + apply statement_distinct.
    + unfold statement_fields. cbn [map].
      repeat (constructor; [first [assumption | apply text_becomes; reflexivity]|]). constructor.
    + exact Hex.
  - split; [|reflexivity]. constructor; cbn; auto. unfold ms. rewrite map_map. cbn [ti_type ti_jwt]. transitivity (map (fun m : string * string => m) (st_marks c)); [apply map_ext; now intros [a b]|apply map_id].
Qed.
