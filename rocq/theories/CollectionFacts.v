(** Lemmas about Collection.v. *)
From Coq Require Import QArith Lia.
From Verif Require Import Base BaseFacts GoVal Policy Schema Metadata MetadataFacts SpecMetadata Chain Resolver FloatTime Json SpecJson JsonFacts TrustMark Leaf Config SpecConfig.
From Verif Require Import Refresher Discovery SpecDiscovery EvalFacts Jwt Statement SpecStatement Encode SpecEncode EncodeFacts EncodeLaws Respond SpecRespond RespondFacts SpecWritten Collection SpecCollection.
From Verif Require Import Json.
Local Open Scope nat_scope.
Local Open Scope string_scope.

(** Members with distinct names, each the name of a field or of none, decode one by one. *)
Lemma nth_ext {A} (l l' : list A) : List.length l = List.length l' -> (forall i x y, nth_error l i = Some x -> nth_error l' i = Some y -> y = x) -> l = l'.
Proof.
  revert l'. induction l as [|x l IH]; intros [|y l'] L H; try discriminate L; [reflexivity|].
  rewrite (H 0 x y eq_refl eq_refl). f_equal. apply IH; [now injection L|]. intros i a b. apply (H (S i)).
Qed.
Lemma nth_set {A} i (x : A) l k : nth_error (set_nth i x l) k = if Nat.eqb k i then match nth_error l k with Some _ => Some x | None => None end else nth_error l k.
Proof.
  revert i k. induction l as [|y l IH]; intros [|i] [|k]; cbn [set_nth nth_error Nat.eqb]; try reflexivity.
  - now destruct (Nat.eqb k i).
  - apply IH.
Qed.
Lemma set_nth_length {A} i (x : A) l : List.length (set_nth i x l) = List.length l.
Proof. revert i. induction l as [|y l IH]; intros [|i]; cbn; auto. Qed.
Lemma field_of_tag (ts : list string) k : NoDup ts -> In k ts -> exists i, field_of ts k = Some i /\ nth_error ts i = Some k.
Proof.
  intros N I. apply in_split in I as (l & r & ->). exists (List.length l). split; [|apply nth_error_app_mid].
  unfold field_of. rewrite index_of_exact; [reflexivity|]. apply NoDup_remove_2 in N. intros J. apply N. apply in_or_app. now left.
Qed.
Lemma dec_members {V} (fs : list (jfield V)) : NoDup (tags fs) -> forall o vs ws, NoDup (keys o) ->
  (forall k, In k (keys o) -> In k (tags fs) \/ ~ In (fold_name k) (map fold_name (tags fs))) ->
  List.length vs = List.length fs -> List.length ws = List.length fs ->
  (forall i f v w, nth_error fs i = Some f -> nth_error vs i = Some v -> nth_error ws i = Some w ->
     match lookup (f_tag f) o with Some j => c_dec (f_codec f) v j = Ok w | None => w = v end) ->
  dec_fields fs o vs = Ok ws.
Proof.
  intros N. induction o as [|[k j] o IH]; intros vs ws ND X Lv Lw H; cbn [dec_fields].
  - f_equal. apply nth_ext; [congruence|]. intros i v w Hv Hw. destruct (nth_error fs i) as [f|] eqn:F.
    + apply (H i f v w F Hv Hw).
    + apply nth_error_None in F. rewrite <- Lv in F. apply nth_error_None in F. congruence.
  - cbn [keys map fst] in ND. inversion ND as [|? ? NI ND']; subst.
    assert (X' : forall k', In k' (keys o) -> In k' (tags fs) \/ ~ In (fold_name k') (map fold_name (tags fs))) by (intros k' I; apply X; now right).
    destruct (X k (or_introl eq_refl)) as [T|T].
    + destruct (field_of_tag _ _ N T) as (i & F & Ft). rewrite F. unfold tags in Ft. rewrite nth_error_map in Ft.
      destruct (nth_error fs i) as [f|] eqn:Ff; [|discriminate Ft]. injection Ft as Et.
      assert (Li : i < List.length fs) by (apply nth_error_Some; congruence).
      destruct (nth_error vs i) as [v|] eqn:Fv; [|apply nth_error_None in Fv; lia].
      destruct (nth_error ws i) as [w|] eqn:Fw; [|apply nth_error_None in Fw; lia].
      pose proof (H i f v w Ff Fv Fw) as D. cbn [lookup] in D. rewrite Et, String.eqb_refl in D. rewrite D. cbn [bind].
      apply IH; try assumption; [now rewrite set_nth_length|]. intros i' f' v' w' Ff' Fv' Fw'. rewrite nth_set in Fv'.
      destruct (Nat.eqb_spec i' i) as [-> |Ni].
      * rewrite Fv in Fv'. assert (w' = w /\ f' = f /\ v' = w) as (-> & -> & ->) by (repeat split; congruence). rewrite Et.
        assert (lookup k o = None) as -> by (apply lookup_None; exact NI). reflexivity.
      * pose proof (H i' f' v' w' Ff' Fv' Fw') as D'. cbn [lookup] in D'. destruct (String.eqb_spec (f_tag f') k) as [E|_]; [|exact D'].
        exfalso. apply Ni. eapply (proj1 (NoDup_nth_error (tags fs)) N).
        -- unfold tags. rewrite map_length. apply nth_error_Some. congruence.
        -- unfold tags. rewrite !nth_error_map, Ff', Ff. cbn [option_map]. congruence.
    + rewrite field_of_none by exact T. apply IH; try assumption. intros i f v w Ff Fv Fw. pose proof (H i f v w Ff Fv Fw) as D. cbn [lookup] in D.
      destruct (String.eqb_spec (f_tag f) k) as [E|_]; [|exact D]. exfalso. apply T. apply in_map. rewrite <- E. unfold tags. apply in_map. eapply nth_error_In; exact Ff.
Qed.

Lemma ui_tags : tags ui_fields = ["display_name"; "description"; "keywords"; "logo_uri"; "policy_uri"; "information_uri"]. Proof. reflexivity. Qed.
Lemma ui_tags_names k : In k (tags ui_fields) <-> In k ui_names.
Proof. rewrite ui_tags. unfold ui_names, ui_strings. cbn [In]. tauto. Qed.
Lemma ui_fold k : In (fold_name k) (map fold_name (tags ui_fields)) <-> In (fold_name k) (map fold_name ui_names).
Proof. rewrite ui_tags. unfold ui_names, ui_strings. cbn [map In]. tauto. Qed.
Lemma ui_nodup : NoDup (tags ui_fields). Proof. rewrite ui_tags. apply nodupb_ok. reflexivity. Qed.

(** What a reader should find in the fields. *)
Definition shown_text (u : uiinfo) (tag : string) : gval := GStr (match ui_json u tag with Some (JStr s) => s | _ => "" end).

Lemma ui_shape u : ui_ok u -> exists a b w c d e, ui_vals u = [GStr a; GStr b; GList w; GStr c; GStr d; GStr e].
Proof.
  intros [T [w W] L _ _]. destruct u as [vs x]. cbn [ui_vals] in *.
  destruct vs as [|v0 [|v1 [|v2 [|v3 [|v4 [|v5 [|]]]]]]]; try discriminate L.
  assert (H : forall tag, In tag ui_strings -> exists s, ui_field (UI [v0; v1; v2; v3; v4; v5] x) tag = Some (GStr s)) by exact T.
  destruct (H "display_name") as [a Ha]; [now left|]. destruct (H "description") as [b Hb]; [cbn; tauto|]. destruct (H "logo_uri") as [c Hc]; [cbn; tauto|].
  destruct (H "policy_uri") as [d Hd]; [cbn; tauto|]. destruct (H "information_uri") as [e He]; [cbn; tauto|].
  injection Ha as ->. injection Hb as ->. injection Hc as ->. injection Hd as ->. injection He as ->. injection W as ->. eauto 10.
Qed.

Lemma text_field_members (u : uiinfo) a b w c d e tag :
  ui_vals u = [GStr a; GStr b; GList w; GStr c; GStr d; GStr e] -> In tag ui_strings ->
  forall j, lookup tag (enc_fields ui_fields (ui_vals u)) = Some j -> exists s, j = JStr s.
Proof.
  intros -> I j. unfold ui_fields, ui_strings in *. cbn [enc_fields f_omit f_codec f_tag c_empty c_enc str_codec list_codec andb].
  cbn [In] in I. intros H. repeat match goal with H : context [match ?c with true => _ | false => _ end] |- _ => destruct c end;
    repeat (destruct I as [<-|I]); try contradiction; vm_compute in H; try discriminate H; injection H as <-; eauto.
Qed.
Lemma lookup_keys {A} k (m : smap A) v : lookup k m = Some v -> In k (keys m).
Proof. intros L. destruct (in_dec string_dec k (keys m)) as [I|N]; [exact I|]. apply lookup_None in N. congruence. Qed.
Lemma words_field_members (u : uiinfo) a b w c d e :
  ui_vals u = [GStr a; GStr b; GList w; GStr c; GStr d; GStr e] ->
  forall j, lookup "keywords" (enc_fields ui_fields (ui_vals u)) = Some j -> exists l, j = JArr (map JStr l).
Proof.
  intros E j. change "keywords" with (f_tag (JField "keywords" true list_codec)).
  rewrite (enc_fields_claim ui_fields (ui_vals u) 2 (JField "keywords" true list_codec) (GList w) ui_nodup eq_refl); [|now rewrite E|now rewrite E].
  cbn [f_omit f_codec c_empty c_enc list_codec andb]. destruct w as [[|x w]|]; [discriminate| |discriminate]. intros [= <-]. exists (x :: w). reflexivity.
Qed.
Lemma ui_json_lookup u tag : NoDup (keys (ui_extra u)) ->
  ui_json u tag = match lookup tag (ui_extra u) with Some j => Some j | None => lookup tag (enc_fields ui_fields (ui_vals u)) end.
Proof. intros N. unfold ui_json, marshal. now rewrite lookup_overlay, lookup_rev by exact N. Qed.
Lemma ui_text u tag : ui_ok u -> In tag ui_strings -> ui_json u tag = None \/ exists s, ui_json u tag = Some (JStr s).
Proof.
  intros O I. rewrite ui_json_lookup by apply O. destruct (lookup tag (ui_extra u)) as [j|] eqn:L.
  - destruct (uo_extra u O _ _ L) as [[_ T]|F]; [|exfalso; apply F, in_map; now right].
    unfold ui_typed in T. destruct (String.eqb_spec tag "keywords") as [-> |_].
    + exfalso. cbn [In ui_strings] in I. repeat destruct I as [I|I]; try discriminate I; exact I.
    + destruct T as [s ->]. right. eauto.
  - destruct (ui_shape u O) as (a & b & w & c & d & e & Sh). destruct (lookup tag (enc_fields ui_fields (ui_vals u))) eqn:L2; [|now left].
    destruct (text_field_members u _ _ _ _ _ _ tag Sh I _ L2) as [s ->]. right. eauto.
Qed.
Lemma ui_words u : ui_ok u -> exists l, ui_json u "keywords" = option_map (fun l => JArr (map JStr l)) l.
Proof.
  intros O. rewrite ui_json_lookup by apply O. destruct (lookup "keywords" (ui_extra u)) as [j|] eqn:L.
  - destruct (uo_extra u O _ _ L) as [[_ [l ->]]|F]; [now exists (Some l)|exfalso; apply F; now left].
  - destruct (ui_shape u O) as (a & b & w & c & d & e & Sh). destruct (lookup "keywords" (enc_fields ui_fields (ui_vals u))) eqn:L2; [|now exists None].
    destruct (words_field_members u _ _ _ _ _ _ Sh _ L2) as [l ->]. now exists (Some l).
Qed.

Theorem ui_back u : ui_ok u -> exists u', dec_ui (enc_ui u) = Ok u' /\ ui_read u u'.
Proof.
  intros O. destruct (ui_words u O) as [l W]. unfold enc_ui, dec_ui, marshal, unmarshal_with_extra. set (o := overlay (enc_fields ui_fields (ui_vals u)) (ui_extra u)).
  assert (Lo : forall tag, lookup tag o = ui_json u tag) by reflexivity.
  assert (No : NoDup (keys o)) by (apply overlay_NoDup, enc_fields_NoDup, ui_nodup).
  assert (Xo : forall k, In k (keys o) -> In k (tags ui_fields) \/ ~ In (fold_name k) (map fold_name (tags ui_fields))).
  { intros k I. rewrite ui_fold, ui_tags_names. apply keys_lookup in I as [j I]. rewrite Lo, ui_json_lookup in I by apply O.
    destruct (lookup k (ui_extra u)) as [j'|] eqn:L; [destruct (uo_extra u O _ _ L) as [[T _]|F]; auto|].
    left. rewrite <- ui_tags_names. eapply enc_fields_keys. eapply lookup_keys. exact I. }
  assert (D : dec_fields ui_fields o (zeros ui_fields) =
    Ok [shown_text u "display_name"; shown_text u "description"; GList l; shown_text u "logo_uri"; shown_text u "policy_uri"; shown_text u "information_uri"]).
  { assert (St : forall tag, In tag ui_strings -> match lookup tag o with Some j => (s <- dec_str "" j ;; Ok (GStr s)) = Ok (shown_text u tag) | None => shown_text u tag = GStr "" end).
    { intros tag I. rewrite Lo. unfold shown_text. destruct (ui_text u tag O I) as [E|[s E]]; rewrite E; reflexivity. }
    assert (Sw : match lookup "keywords" o with Some j => c_dec list_codec (GList None) j = Ok (GList l) | None => GList l = GList None end).
    { rewrite Lo, W. destruct l as [l|]; [|reflexivity]. cbn [option_map list_codec c_dec]. now rewrite dec_strs_map. }
    apply dec_members; [apply ui_nodup|exact No|exact Xo|reflexivity|reflexivity|].
    intros [|[|[|[|[|[|i]]]]]] f v w Ff Fv Fw; cbn [nth_error ui_fields zeros map] in Ff, Fv, Fw;
      try (injection Ff as <-; injection Fv as <-; injection Fw as <-; first [exact Sw | apply St; cbn [In ui_strings]; tauto]).
    destruct i; discriminate Ff. }
  rewrite D. cbn [bind]. eexists. split; [reflexivity|]. constructor.
  - intros tag I. cbn [In ui_strings] in I. repeat (destruct I as [<-|I]; [reflexivity|]). contradiction.
  - exists l. split; [reflexivity|exact W].
  - intros k. cbn [ui_extra]. rewrite as_map_id by exact No.
    destruct (mem k ui_names) eqn:M.
    { apply lookup_None. intros I. apply in_map_iff in I as ([k' j] & <- & I). apply filter_In in I as [_ I]. cbn [fst] in I, M.
      apply mem_In, ui_tags_names, mem_In in M. rewrite M in I. discriminate I. }
    rewrite (lookup_filter_ne o (fun k => negb (mem k (tags ui_fields)))).
    2: { apply Bool.negb_true_iff, mem_nIn. intros I. apply ui_tags_names, mem_In in I. congruence. }
    rewrite Lo, ui_json_lookup by apply O.
    destruct (lookup k (ui_extra u)); [reflexivity|]. apply lookup_None. intros I. apply enc_fields_keys, ui_tags_names, mem_In in I. congruence.
Qed.

Lemma map_read {A B} (dec : json -> res B) (enc : A -> json) (R : A -> B -> Prop) (m : smap A) : NoDup (keys m) ->
  (forall k a, In (k, a) m -> exists b, dec (enc a) = Ok b /\ R a b) ->
  exists m', dec_map dec (JObj (map (fun kv => (fst kv, enc (snd kv))) m)) = Ok m' /\
    forall k, match lookup k m, lookup k m' with Some a, Some b => R a b | None, None => True | _, _ => False end.
Proof.
  intros N D. cbn [dec_map].
  assert (E : exists m', map_res (fun x : string * json => v <- dec (snd x);; Ok (fst x, v)) (map (fun kv => (fst kv, enc (snd kv))) m) = Ok m' /\ keys m' = keys m /\
    forall k, match lookup k m, lookup k m' with Some a, Some b => R a b | None, None => True | _, _ => False end).
  { clear N. induction m as [|[k a] m IH]; [exists (@nil (string * B)); split; [reflexivity|split; [reflexivity|intros k; exact I]]|]. destruct (D k a) as (b & Db & Rb); [now left|]. destruct IH as (m' & E & K & H); [intros; apply (D k0); now right|].
    exists ((k, b) :: m'). cbn [map map_res fst snd]. rewrite Db. cbn [bind]. rewrite E. cbn [bind]. split; [reflexivity|]. split; [cbn [keys map fst] in *; unfold keys in K; now rewrite K|].
    intros k'. cbn [lookup]. destruct (String.eqb k' k); [exact Rb|apply H]. }
  destruct E as (m' & E & K & H). exists m'. rewrite E. cbn [bind]. rewrite last_map_id by now rewrite K. auto.
Qed.

Lemma collected_distinct jws : distinct_names (collected_fields jws).
Proof. unfold distinct_names. apply nodupb_ok. vm_compute. reflexivity. Qed.
Lemma collected_enc jws vs x : marshal (collected_fields (fun _ => true)) vs x = marshal (collected_fields jws) vs x.
Proof. reflexivity. Qed.
Theorem coll_back jws e : entity_ok_coll jws e -> exists e', dec_collected jws (enc_collected e) = Ok e' /\ entity_read_coll e e' /\ ce_metadata e' = None.
Proof.
  intros [Hm Hc Hn Hu].
  destruct (map_read dec_ui enc_ui ui_read (ce_ui e) Hn) as (ui & Du & Ru).
  { intros k u I. apply ui_back. apply (Hu k). apply In_lookup; assumption. }
  set (ms := map (fun t => Info (ti_type t) (ti_jwt t) (ti_extra t) None) (ce_marks e)).
  pose proof (marks_back _ Hm) as Dm. fold ms in Dm.
  assert (exists vs, unmarshal_with_extra (collected_fields jws) (enc_collected e) (zeros (collected_fields jws)) = Ok (vs, []) /\
    Coll (cv_str (cnth 0 vs)) (cv_names (cnth 3 vs)) (cv_infos (cnth 4 vs)) (cv_marks (cnth 1 vs)) (cv_names (cnth 2 vs)) None = Coll (ce_id e) (ce_types e) ui ms (ce_chain e) None) as (vs & D & E).
  { exists [CStr (ce_id e); CMarks ms; CNames (match ce_chain e with [] => None | l => Some l end); CNames (match ce_types e with [] => None | l => Some l end); CInfos ui].
    split.
    - unfold enc_collected. rewrite (collected_enc jws). fold (decode (collected_fields jws)).
      apply (marshal_becomes (collected_fields jws)); [apply collected_distinct| |split; [constructor|intros k []]].
      unfold collected_fields. constructor; [|constructor; [|constructor; [|constructor; [|constructor; [|constructor]]]]];
        unfold becomes; cbn [cfield f_omit f_codec c_empty c_enc c_dec c_zero andb enc_cval].
      + reflexivity.
      + unfold ms in *. destruct (ce_marks e) as [|t l]; [reflexivity|]. cbn [empty_cval]. now rewrite Dm.
      + destruct (ce_chain e) as [|t l] eqn:Ec; [reflexivity|]. cbn [empty_cval items]. unfold dec_messages. rewrite names_back. cbn [bind items].
        assert (F : forallb jws (t :: l) = true) by (apply forallb_forall; exact Hc). now rewrite F.
      + destruct (ce_types e) as [|t l]; [reflexivity|]. cbn [empty_cval items]. now rewrite names_back.
      + destruct (ce_ui e) as [|t l]; [cbn in Du; now injection Du as <-|]. cbn [empty_cval]. now rewrite Du.
    - unfold cnth. cbn [nth cv_str cv_names cv_infos cv_marks]. destruct (ce_chain e), (ce_types e); reflexivity. }
  exists (Coll (ce_id e) (ce_types e) ui ms (ce_chain e) None). split; [|split; [constructor; try reflexivity|reflexivity]].
  - unfold dec_collected. rewrite D. cbn [bind]. now rewrite E.
  - cbn [ce_marks]. unfold ms. clear. induction (ce_marks e); constructor; [reflexivity|assumption].
  - exact Ru.
Qed.

Lemma collection_distinct jws : distinct_names (collection_fields jws).
Proof. unfold distinct_names. apply nodupb_ok. vm_compute. reflexivity. Qed.
Lemma collection_enc jws vs : enc_fields (collection_fields (fun _ => true)) vs = enc_fields (collection_fields jws) vs.
Proof. reflexivity. Qed.
(** Whatever else the document says, its entities are those of this member. *)
Lemma remote_entities jws c : simple_remote jws (Some (enc_collection c)) = match dec_entities jws (enc_entities (cl_entities c)) with Ok l => l | _ => None end.
Proof.
  unfold simple_remote, enc_collection, unmarshal. rewrite (collection_enc jws).
  destruct (dec_entities jws (enc_entities (cl_entities c))) as [l| |] eqn:De.
  - assert (D : exists t, decode (collection_fields jws) (marshal (collection_fields jws) [CEntities (cl_entities c); CStr (cl_next c); CTime (cl_updated c)] []) =
      Ok ([CEntities l; CStr (cl_next c); t], [])).
    { exists (CTime (match cl_updated c with Some t => Some (decode_time (encode_time t)) | None => None end)).
      apply (marshal_becomes (collection_fields jws)); [apply collection_distinct| |split; [constructor|intros k []]].
      constructor; [|constructor; [|constructor; [|constructor]]]; unfold becomes; cbn [cfield f_omit f_codec c_empty c_enc c_dec c_zero andb enc_cresponse enc_cval].
      - now rewrite De.
      - destruct (cl_next c); reflexivity.
      - destruct (cl_updated c); reflexivity. }
    destruct D as [t D]. unfold decode, marshal, unmarshal_with_extra, overlay in D. cbn [fold_left] in D. apply bind_ok in D as (vs & D & E). injection E as -> _. now rewrite D.
  - unfold collection_fields at 2. cbn [enc_fields cfield f_omit f_codec f_tag c_enc andb enc_cresponse dec_fields].
    change (field_of (tags (collection_fields jws)) "federation_entities") with (Some 0). cbn [nth_error collection_fields zeros map f_codec cfield c_dec]. now rewrite De.
  - unfold collection_fields at 2. cbn [enc_fields cfield f_omit f_codec f_tag c_enc andb enc_cresponse dec_fields].
    change (field_of (tags (collection_fields jws)) "federation_entities") with (Some 0). cbn [nth_error collection_fields zeros map f_codec cfield c_dec]. now rewrite De.
Qed.
Lemma entities_back jws l : Forall (entity_ok_coll jws) l ->
  exists l', map_res (dec_ptr (dec_collected jws)) (map (enc_opt enc_collected) (map Some l)) = Ok (map Some l') /\ Forall2 entity_read_coll l l' /\ Forall (fun e => ce_metadata e = None) l'.
Proof.
  induction 1 as [|e l O _ (l' & E & R & M)]; [exists []; repeat split; constructor|]. destruct (coll_back jws e O) as (e' & D & Re & Me).
  exists (e' :: l'). cbn [map map_res enc_opt]. unfold dec_ptr at 1. rewrite D. change (enc_collected e) with (JObj (overlay (enc_fields (collected_fields (fun _ => true))
    [CStr (ce_id e); CMarks (ce_marks e); CNames (Some (ce_chain e)); CNames (Some (ce_types e)); CInfos (ce_ui e)]) [])). cbn [bind]. rewrite E. cbn [bind].
  repeat split; constructor; assumption.
Qed.
Theorem collection_back jws l next t : Forall (entity_ok_coll jws) l -> l <> [] ->
  exists l', simple_remote jws (Some (enc_collection (Collection (slice_of l) next t))) = Some (map Some l') /\ Forall2 entity_read_coll l l' /\ Forall (fun e => ce_metadata e = None) l'.
Proof.
  intros F N. rewrite remote_entities. cbn [cl_entities]. destruct (entities_back jws l F) as (l' & E & R & M). exists l'. split; [|auto].
  destruct l as [|e l]; [congruence|]. unfold slice_of, enc_entities, dec_entities. now rewrite E.
Qed.
Theorem collection_nothing jws next t : simple_remote jws (Some (enc_collection (Collection (slice_of []) next t))) = None.
Proof. now rewrite remote_entities. Qed.

Lemma filter_remote_spec valid fs l : forall i, filter_remote valid fs i l = if existsb (fun x => match x with None => true | _ => false end) l then Panic
  else Ok (filter_entities (valid :: fs) i (flat_map (fun x => match x with Some e => [e] | None => [] end) l)).
Proof.
  induction l as [|[e|] l IH]; intros i; [reflexivity| |reflexivity]. cbn [filter_remote existsb orb flat_map app]. rewrite IH.
  destruct (existsb _ l); [reflexivity|]. cbn [bind filter_entities]. destruct (approve (valid :: fs) false i e); reflexivity.
Qed.
Theorem filter_remote_ok valid fs l : filter_remote valid fs 0 (map Some l) = Ok (filterable valid fs l).
Proof.
  rewrite filter_remote_spec. assert (existsb (fun x : option collected => match x with None => true | _ => false end) (map Some l) = false) as ->
    by (induction l; [reflexivity|assumption]).
  unfold filterable. do 2 f_equal. induction l as [|e l IH]; [reflexivity|]. cbn [map flat_map app]. now rewrite IH.
Qed.
Theorem filter_remote_nil valid fs l : filter_remote valid fs 0 l = Panic <-> In None l.
Proof.
  rewrite filter_remote_spec. destruct (existsb _ l) eqn:E.
  - split; [intros _|reflexivity]. apply existsb_exists in E as ([x|] & I & H); [discriminate H|exact I].
  - split; [discriminate|]. intros I. assert (existsb (fun x : option collected => match x with None => true | _ => false end) l = true) by (apply existsb_exists; exists None; auto). congruence.
Qed.

(** What the collector makes can be served. *)
Definition servable (m : smap uiinfo) : Prop := NoDup (keys m) /\ forall ty u, lookup ty m = Some u -> ui_vals u = zeros ui_fields /\ NoDup (keys (ui_extra u)) /\
  forall k j, lookup k (ui_extra u) = Some j -> In k ui_names /\ ui_typed k j.
Lemma put_servable ty tag s m : In tag ui_strings -> servable m -> servable (put_ui ty tag (GStr s) m).
Proof.
  intros I [N P]. rewrite put_ui_eq by (right; exact I). split; [now apply keys_insert_NoDup|]. intros t u. rewrite lookup_insert. destruct (String.eqb t ty); [|apply P].
  intros [= <-]. cbn [ui_vals ui_extra].
  assert (Q : ui_vals (match lookup ty m with Some u => u | None => zero_ui end) = zeros ui_fields /\ NoDup (keys (ui_extra (match lookup ty m with Some u => u | None => zero_ui end))) /\
    forall k j, lookup k (ui_extra (match lookup ty m with Some u => u | None => zero_ui end)) = Some j -> In k ui_names /\ ui_typed k j).
  { destruct (lookup ty m) eqn:L; [now apply (P ty)|]. split; [reflexivity|]. split; [constructor|discriminate]. }
  destruct Q as (Q1 & Q2 & Q3). split; [exact Q1|]. split; [now apply keys_insert_NoDup|]. intros k j. rewrite lookup_insert.
  destruct (String.eqb_spec k tag) as [-> |_]; [|apply Q3]. intros [= <-]. split; [now right|]. unfold ui_typed.
  destruct (String.eqb_spec tag "keywords") as [-> |_]; [|cbn; eauto]. exfalso. cbn [In ui_strings] in I. repeat destruct I as [I|I]; try discriminate I; exact I.
Qed.
Lemma puts_servable tag l : forall m, In tag ui_strings -> servable m -> servable (puts tag l m).
Proof. induction l as [|tv l IH]; intros m I P; [exact P|]. apply IH; [exact I|]. now apply put_servable. Qed.
Theorem collected_servable fuel ce rq q sub cfg m e : evaluate fuel ce rq q sub cfg m = Done (Ok (Some e)) ->
  NoDup (keys (ce_ui e)) /\ forall ty u, lookup ty (ce_ui e) = Some u -> ui_ok u.
Proof.
  intros E. apply evaluate_spec in E. destruct E as [_ E]. destruct (E e eq_refl) as (_ & _ & U). apply ui_infos_eq in U.
  assert (S : servable (ce_ui e)).
  { rewrite U. repeat (apply puts_servable; [cbn; tauto|]). split; [constructor|discriminate]. }
  destruct S as [N S]. split; [exact N|]. intros ty u L. destruct (S ty u L) as (V & ND & X). destruct u as [vs x]. cbn [ui_vals ui_extra] in *. subst vs. constructor.
  - intros tag I. cbn [In ui_strings] in I. repeat (destruct I as [<-|I]; [eexists; reflexivity|]). contradiction.
  - eexists. reflexivity.
  - reflexivity.
  - exact ND.
  - intros k j Lk. left. apply (X k j Lk).
Qed.
(** The client of a collection endpoint finds the UI claims of the metadata in the fields. *)
Theorem collected_shown fuel ce rq q sub cfg m e e' : evaluate fuel ce rq q sub cfg m = Done (Ok (Some e)) -> known_types m ->
  (forall ty x, typed_field m ty = Some x -> well_typed x) -> entity_read_coll e e' ->
  forall ty tag v, In tag ui_strings -> v <> "" ->
    ((exists u, lookup ty (ce_ui e') = Some u /\ ui_field u tag = Some (GStr v)) <-> wants rq tag = true /\ ui_claim m ty tag v).
Proof.
  intros E K WT R ty tag v I Nv. pose proof (ui_spec _ _ _ _ _ _ _ _ E K WT ty tag (JStr v) I) as S. pose proof (er_ui e e' R ty) as Rt. split.
  - intros (u' & L & F). rewrite L in Rt. destruct (lookup ty (ce_ui e)) as [u|] eqn:Lu; [|contradiction].
    rewrite (ur_texts _ _ Rt tag I) in F. injection F as F. destruct (ui_json u tag) as [[]|] eqn:J; try (symmetry in F; contradiction). subst s.
    destruct (proj1 S) as (v' & [= ->] & H); [eauto|exact H].
  - intros H. destruct (proj2 S) as (u & L & J); [eauto|]. rewrite L in Rt. destruct (lookup ty (ce_ui e')) as [u'|] eqn:L'; [|contradiction].
    exists u'. split; [reflexivity|]. now rewrite (ur_texts _ _ Rt tag I), J.
Qed.
(** An anchor that collected nothing is passed over. *)
Lemma smart_skip jws endpoint body i a ids l next t : l = [] -> endpoint i a <> "" -> body i (endpoint i a) = Some (enc_collection (Collection (slice_of l) next t)) ->
  smart_answers jws endpoint body i (a :: ids) = smart_answers jws endpoint body (S i) ids.
Proof. intros -> N B. cbn [smart_answers]. apply String.eqb_neq in N. rewrite N, B. now rewrite collection_nothing. Qed.

(** The members of what is written. *)
Lemma written_collected e : let d := enc_collected e in
  claim "entity_id" d = Some (JStr (ce_id e)) /\ claim "entity_types" d = names_claim (ce_types e) /\ claim "trust_chain" d = names_claim (ce_chain e) /\
  claim "trust_marks" d = match ce_marks e with [] => None | l => Some (JArr (map enc_info l)) end /\
  claim "ui_infos" d = match ce_ui e with [] => None | m => Some (JObj (map (fun kv => (fst kv, enc_ui (snd kv))) m)) end.
Proof.
  destruct e as [id types ui marks chain meta]. unfold enc_collected. cbn [ce_id ce_types ce_ui ce_marks ce_chain].
  destruct marks; destruct chain; destruct types; destruct ui; repeat split; reflexivity.
Qed.
Lemma written_collection l next t : let d := enc_collection (Collection (slice_of l) next t) in
  claim "federation_entities" d = Some (match l with [] => JNull | _ => JArr (map enc_collected l) end) /\
  claim "next_entity_id" d = (if String.eqb next "" then None else Some (JStr next)) /\
  claim "last_updated" d = option_map (fun t => JNum (encode_time t)) t.
Proof.
  unfold enc_collection. cbn [cl_entities cl_next cl_updated]. assert (S : enc_entities (slice_of l) = match l with [] => JNull | _ => JArr (map enc_collected l) end).
  { destruct l as [|e l]; [reflexivity|]. cbn [slice_of enc_entities]. f_equal. now rewrite map_map. }
  cbn [enc_fields collection_fields cfield f_omit f_codec f_tag c_empty c_enc andb empty_cval enc_cresponse enc_cval]. rewrite S.
  destruct (String.eqb next ""); destruct t; cbn [enc_opt option_map]; repeat split; reflexivity.
Qed.
(** The first anchor that answers decides. *)
Lemma smart_first jws endpoint body ids : forall n, match smart_answers jws endpoint body n ids with
  | Some l => exists i, answers jws endpoint body n ids i l /\ forall i' l', i' < i -> ~ answers jws endpoint body n ids i' l'
  | None => forall i l, ~ answers jws endpoint body n ids i l
  end.
Proof.
  induction ids as [|a ids IH]; intros n; cbn [smart_answers].
  - intros i l (a & H & _). destruct i; discriminate H.
  - assert (Sh : forall i l, answers jws endpoint body n (a :: ids) (S i) l <-> answers jws endpoint body (S n) ids i l).
    { intros i l. unfold answers. cbn [nth_error]. replace (n + S i) with (S n + i) by lia. reflexivity. }
    assert (Skip : (forall l, ~ answers jws endpoint body n (a :: ids) 0 l) -> match smart_answers jws endpoint body (S n) ids with
      | Some l => exists i, answers jws endpoint body n (a :: ids) i l /\ forall i' l', i' < i -> ~ answers jws endpoint body n (a :: ids) i' l'
      | None => forall i l, ~ answers jws endpoint body n (a :: ids) i l
      end).
    { intros H0. specialize (IH (S n)). destruct (smart_answers jws endpoint body (S n) ids) as [l|].
      - destruct IH as (i & A & B). exists (S i). split; [now apply Sh|]. intros [|i'] l' L; [apply H0|]. rewrite Sh. apply B. lia.
      - intros [|i] l; [apply H0|]. rewrite Sh. apply IH. }
    cbn zeta. destruct (String.eqb_spec (endpoint n a) "") as [E|E].
    + apply Skip. intros l (a' & [= <-] & N & _). rewrite Nat.add_0_r in N. contradiction.
    + destruct (simple_remote jws (body n (endpoint n a))) as [l|] eqn:R.
      * exists 0. split; [|lia]. exists a. rewrite Nat.add_0_r. auto.
      * apply Skip. intros l (a' & [= <-] & _ & N). rewrite Nat.add_0_r in N. congruence.
Qed.
Lemma smart_decides jws endpoint body ids l : smart_answers jws endpoint body 0 ids = Some l <->
  exists i, answers jws endpoint body 0 ids i l /\ forall i' l', i' < i -> ~ answers jws endpoint body 0 ids i' l'.
Proof.
  pose proof (smart_first jws endpoint body ids 0) as H. destruct (smart_answers jws endpoint body 0 ids) as [l0|].
  - destruct H as (i & A & B). split.
    + intros [= <-]. eauto.
    + intros (j & C & D). destruct (Nat.lt_trichotomy i j) as [L|[-> |L]].
      * now apply D in A.
      * destruct A as (a & A1 & A2 & A3), C as (c & C1 & C2 & C3). congruence.
      * now apply B in C.
  - split; [discriminate|]. intros (i & A & _). now apply H in A.
Qed.
