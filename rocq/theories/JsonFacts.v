From Verif Require Import Base GoVal Policy Schema Metadata Chain FloatTime Json SpecJson BaseFacts.
Local Open Scope string_scope.

(** ** Maps *)
Lemma overlay_cons a k v x : overlay a ((k, v) :: x) = overlay (insert k v a) x.
Proof. reflexivity. Qed.

Lemma lookup_overlay x : forall a k,
  lookup k (overlay a x) = match lookup k (rev x) with Some v => Some v | None => lookup k a end.
Proof.
  induction x as [|[k' v'] x IH]; intros a k; [reflexivity|].
  rewrite overlay_cons, IH, lookup_insert. cbn [rev].
  assert (L : forall (l : smap json), lookup k (l ++ [(k', v')])%list =
            match lookup k l with Some v => Some v | None => if String.eqb k k' then Some v' else None end).
  { induction l as [|[a1 b1] l IHl]; cbn [app lookup]; [reflexivity|]. destruct (String.eqb k a1); auto. }
  rewrite L. destruct (lookup k (rev x)); [reflexivity|]. now destruct (String.eqb k k').
Qed.

Lemma overlay_NoDup x : forall a, NoDup (keys a) -> NoDup (keys (overlay a x)).
Proof.
  induction x as [|[k v] x IH]; intros a N; [exact N|]. rewrite overlay_cons. apply IH. now apply keys_insert_NoDup.
Qed.

Lemma as_map_NoDup o : NoDup (keys (as_map o)).
Proof. apply (overlay_NoDup o []). constructor. Qed.

Lemma lookup_as_map o k : lookup k (as_map o) = lookup k (rev o).
Proof. change (as_map o) with (overlay [] o). rewrite lookup_overlay. cbn. now destruct (lookup k (rev o)). Qed.

Lemma overlay_app x : forall a, NoDup (keys x) -> (forall k, In k (keys x) -> ~ In k (keys a)) -> overlay a x = (a ++ x)%list.
Proof.
  induction x as [|[k v] x IH]; intros a N D; [now rewrite app_nil_r|].
  rewrite overlay_cons. inversion N as [|? ? Nk Nx]; subst. rewrite insert_app.
  - rewrite IH; auto.
    + now rewrite <- app_assoc.
    + intros k' Hk Ha. unfold keys in Ha. rewrite map_app, in_app_iff in Ha. destruct Ha as [Ha|[<-|[]]].
      * apply (D k'); [now right|exact Ha].
      * contradiction.
  - apply lookup_None. apply D. now left.
Qed.

Lemma as_map_id o : NoDup (keys o) -> as_map o = o.
Proof. intros N. change (as_map o) with (overlay [] o). rewrite overlay_app; auto. Qed.

Lemma lookup_rev_NoDup (o : smap json) k : NoDup (keys o) -> lookup k (rev o) = lookup k o.
Proof. intros N. rewrite <- lookup_as_map. now rewrite as_map_id. Qed.

Lemma lookup_filter_ne (o : smap json) p k :
  p k = true -> lookup k (filter (fun kv => p (fst kv)) o) = lookup k o.
Proof.
  intros P. induction o as [|[a b] o IH]; [reflexivity|]. cbn [filter fst lookup].
  destruct (String.eqb_spec k a) as [->|N].
  - rewrite P. cbn [lookup]. now rewrite String.eqb_refl.
  - destruct (p a); [|exact IH]. cbn [lookup]. destruct (String.eqb_spec k a); [contradiction|exact IH].
Qed.

Lemma keys_filter {A} p (o : smap A) : NoDup (keys o) -> NoDup (keys (filter p o)).
Proof.
  unfold keys. induction o as [|kv o IH]; cbn; intros N; [constructor|].
  inversion N as [|? ? Nk No]; subst. destruct (p kv); [|auto]. cbn. constructor; auto.
  intros H. apply Nk. apply in_map_iff in H. destruct H as (y & E & Hy). apply filter_In in Hy.
  apply in_map_iff. exists y. tauto.
Qed.

(** ** Fields *)
Lemma enc_fields_keys {V} (fs : list (jfield V)) : forall vs k, In k (keys (enc_fields fs vs)) -> In k (tags fs).
Proof.
  induction fs as [|f fs IH]; intros [|v vs] k; cbn [enc_fields]; try (intros []).
  destruct (f_omit f && c_empty (f_codec f) v).
  - intros H. right. eapply IH; eauto.
  - intros [<-|H]; [now left|]. right. eapply IH; eauto.
Qed.

Lemma enc_fields_NoDup {V} (fs : list (jfield V)) : forall vs, NoDup (tags fs) -> NoDup (keys (enc_fields fs vs)).
Proof.
  induction fs as [|f fs IH]; intros [|v vs] N; cbn [enc_fields]; [constructor|constructor|constructor|].
  inversion N as [|? ? Nf Nt]; subst. destruct (f_omit f && c_empty (f_codec f) v); [now apply IH|].
  cbn. constructor; [|now apply IH]. intros H. apply Nf. eapply enc_fields_keys; eauto.
Qed.

Lemma NoDup_tags {V} (fs : list (jfield V)) : distinct_names fs -> NoDup (tags fs).
Proof. intros H. unfold distinct_names in H. eapply NoDup_map_inv; eauto. Qed.

Lemma index_of_exact l : forall t r, ~ In t l -> index_of (String.eqb t) (l ++ t :: r)%list = Some (List.length l).
Proof.
  induction l as [|x l IH]; intros t r N; cbn [app index_of List.length].
  - now rewrite String.eqb_refl.
  - destruct (String.eqb_spec t x) as [->|Nx]; [exfalso; apply N; now left|].
    rewrite IH; auto. intros H. apply N. now right.
Qed.

Lemma index_of_none p l : (forall x, In x l -> p x = false) -> index_of p l = None.
Proof.
  induction l as [|x l IH]; intros H; [reflexivity|]. cbn [index_of]. rewrite (H x) by now left.
  rewrite IH; auto. intros y Hy. apply H. now right.
Qed.

Lemma field_of_none ts k : ~ In (fold_name k) (map fold_name ts) -> field_of ts k = None.
Proof.
  intros N. unfold field_of. rewrite !index_of_none; auto.
  - intros x Hx. destruct (String.eqb_spec (fold_name k) (fold_name x)) as [E|]; auto.
    exfalso. apply N. rewrite E. now apply in_map.
  - intros x Hx. destruct (String.eqb_spec k x) as [E|]; auto. exfalso. apply N. subst. now apply in_map.
Qed.

Lemma dec_fields_extra {V} (fs : list (jfield V)) x : forall vs,
  (forall k, In k (keys x) -> ~ In (fold_name k) (map fold_name (tags fs))) -> dec_fields fs x vs = Ok vs.
Proof.
  induction x as [|[k j] x IH]; intros vs H; [reflexivity|]. cbn [dec_fields].
  rewrite field_of_none by (apply H; now left). apply IH. intros k' Hk. apply H. now right.
Qed.

Lemma set_nth_app {A} (l : list A) x y r : set_nth (List.length l) x (l ++ y :: r)%list = (l ++ x :: r)%list.
Proof. induction l as [|a l IH]; [reflexivity|]. cbn. now rewrite IH. Qed.

Lemma nth_error_app_mid {A} (l : list A) y r : nth_error (l ++ y :: r)%list (List.length l) = Some y.
Proof. induction l; [reflexivity|auto]. Qed.

(** What a field value is after encoding and decoding. *)
Definition becomes {V} (f : jfield V) (v v' : V) : Prop :=
  if f_omit f && c_empty (f_codec f) v then v' = c_zero (f_codec f)
  else c_dec (f_codec f) (c_zero (f_codec f)) (c_enc (f_codec f) v) = Ok v'.
Inductive becomes_all {V} : list (jfield V) -> list V -> list V -> Prop :=
| ba_nil : becomes_all [] [] []
| ba_cons f fs v vs v' vs' : becomes f v v' -> becomes_all fs vs vs' -> becomes_all (f :: fs) (v :: vs) (v' :: vs').

Lemma survives_becomes {V} (fs : list (jfield V)) vs : Forall2 survives fs vs -> becomes_all fs vs vs.
Proof. induction 1 as [|f v fs vs [D O] _ IH]; constructor; auto. unfold becomes. destruct (f_omit f), (c_empty (f_codec f) v); cbn; auto. Qed.

Lemma dec_enc {V} : forall (frest fpre : list (jfield V)) vrest vrest' vpre x,
  NoDup (tags (fpre ++ frest)%list) -> List.length fpre = List.length vpre -> becomes_all frest vrest vrest' ->
  (forall k, In k (keys x) -> ~ In (fold_name k) (map fold_name (tags (fpre ++ frest)%list))) ->
  dec_fields (fpre ++ frest)%list (enc_fields frest vrest ++ x)%list (vpre ++ zeros frest)%list = Ok (vpre ++ vrest')%list.
Proof.
  induction frest as [|f frest IH]; intros fpre vrest vrest' vpre x N L S X.
  - inversion S; subst. cbn [enc_fields app zeros map]. rewrite !app_nil_r in *. now apply dec_fields_extra.
  - inversion S as [|? ? v vs v' vs' D S']; subst. unfold becomes in D. cbn [enc_fields].
    assert (E1 : forall y, (vpre ++ y :: zeros frest)%list = ((vpre ++ [y]) ++ zeros frest)%list)
      by (intros; now rewrite <- app_assoc).
    assert (E2 : (fpre ++ f :: frest)%list = ((fpre ++ [f]) ++ frest)%list) by now rewrite <- app_assoc.
    assert (E3 : (vpre ++ v' :: vs')%list = ((vpre ++ [v']) ++ vs')%list) by now rewrite <- app_assoc.
    assert (L' : List.length (fpre ++ [f])%list = List.length (vpre ++ [v'])%list) by (rewrite !app_length; cbn; lia).
    destruct (f_omit f && c_empty (f_codec f) v) eqn:EO.
    + cbn [zeros map]. rewrite <- D. fold (zeros frest). rewrite E1, E2, E3. apply IH; auto; now rewrite <- E2.
    + cbn [app]. cbn [dec_fields zeros map]. fold (zeros frest).
      assert (F : field_of (tags (fpre ++ f :: frest)%list) (f_tag f) = Some (List.length fpre)).
      { unfold field_of, tags in *. rewrite map_app. cbn [map]. rewrite index_of_exact; [now rewrite map_length|].
        rewrite map_app in N. cbn [map] in N. apply NoDup_remove_2 in N. intros H. apply N. apply in_or_app. now left. }
      rewrite F, nth_error_app_mid, L, nth_error_app_mid, D. cbn [bind]. rewrite set_nth_app.
      rewrite E1, E2, E3. apply IH; auto; now rewrite <- E2.
Qed.

Theorem marshal_becomes {V} (fs : list (jfield V)) vs vs' extra :
  distinct_names fs -> becomes_all fs vs vs' -> no_clash fs extra ->
  decode fs (marshal fs vs extra) = Ok (vs', extra).
Proof.
  intros D S [N C]. pose proof (NoDup_tags fs D) as NT.
  assert (CT : forall k, In k (keys extra) -> ~ In k (tags fs)).
  { intros k Hk H. apply (C k Hk). now apply in_map. }
  assert (E : overlay (enc_fields fs vs) extra = (enc_fields fs vs ++ extra)%list).
  { apply overlay_app; auto. intros k Hk H. apply enc_fields_keys in H. now apply (CT k). }
  unfold decode, marshal, unmarshal_with_extra. rewrite E.
  pose proof (dec_enc fs [] vs vs' [] extra NT eq_refl S C) as DE. cbn [app] in DE. rewrite DE. cbn [bind].
  rewrite as_map_id.
  - rewrite filter_app. f_equal. f_equal.
    rewrite (filter_ext_in _ (fun _ => false)), (filter_ext_in _ (fun _ => true) extra).
    + assert (F0 : forall (l : smap json), filter (fun _ => false) l = []) by (induction l; auto).
      assert (F1 : forall (l : smap json), filter (fun _ => true) l = l) by (induction l; cbn; congruence).
      now rewrite F0, F1.
    + intros [k j] H. cbn. apply negb_true_iff. apply mem_nIn. apply CT. unfold keys. apply in_map_iff. now exists (k, j).
    + intros [k j] H. cbn. apply negb_false_iff. apply mem_In. apply (enc_fields_keys fs vs). unfold keys.
      apply in_map_iff. now exists (k, j).
  - unfold keys. rewrite map_app.
    revert N CT. generalize (enc_fields_NoDup fs vs NT). generalize (enc_fields_keys fs vs).
    generalize (enc_fields fs vs). clear. intros l K NL N CT. unfold keys in *.
    induction l as [|[k j] l IH]; [exact N|]. cbn [map app]. inversion NL as [|? ? Nk Nl]; subst. constructor.
    + rewrite in_app_iff. intros [H|H]; [now apply Nk|]. apply (CT k H). apply K. now left.
    + apply IH; auto. intros k' Hk. apply K. now right.
Qed.

Theorem marshal_roundtrip {V} (fs : list (jfield V)) vs extra :
  distinct_names fs -> Forall2 survives fs vs -> no_clash fs extra ->
  decode fs (marshal fs vs extra) = Ok (vs, extra).
Proof. intros D S C. apply marshal_becomes; auto. now apply survives_becomes. Qed.

(** ** Unknown claims survive *)
Theorem unknown_preserved {V} (fs : list (jfield V)) j vs x k :
  distinct_names fs -> decode fs j = Ok (vs, x) -> ~ In k (tags fs) -> claim k (marshal fs vs x) = claim k j.
Proof.
  unfold decode, unmarshal_with_extra. intros D H N. pose proof (NoDup_tags fs D) as NT.
  assert (M : forall f, claim k (marshal fs vs f) = match lookup k (rev f) with Some v => Some v | None => None end).
  { intros f. unfold claim, marshal. rewrite lookup_rev_NoDup by (apply overlay_NoDup; now apply enc_fields_NoDup).
    rewrite lookup_overlay. destruct (lookup k (rev f)); [reflexivity|].
    apply lookup_None. intros K. apply N. eapply enc_fields_keys. exact K. }
  rewrite M. destruct j as [| | | | |o]; try discriminate.
  - injection H as <- <-. reflexivity.
  - apply bind_ok in H. destruct H as (vs' & D' & E). injection E as <- <-.
    rewrite lookup_rev_NoDup by (apply keys_filter, as_map_NoDup).
    rewrite (lookup_filter_ne _ (fun y => negb (mem y (tags fs)))) by (apply negb_true_iff; now apply mem_nIn).
    rewrite lookup_as_map. cbn [claim]. now destruct (lookup k (rev o)).
Qed.

(** ** Field types *)
Lemma str_survives t om s : survives (JField t om str_codec) (GStr s).
Proof. split; [reflexivity|]. cbn. destruct s; [reflexivity|discriminate]. Qed.

Lemma time_survives t om x : decode_time (encode_time x) = x -> survives (JField t om time_codec) (GTime x).
Proof. intros E. split; [cbn; now rewrite E|]. cbn. discriminate. Qed.

Lemma time_ptr_survives t om x :
  (forall y, x = Some y -> decode_time (encode_time y) = y) -> survives (JField t om time_ptr_codec) (GTimePtr x).
Proof.
  intros E. split.
  - destruct x as [y|]; cbn; [now rewrite (E y)|reflexivity].
  - destruct x; cbn; [discriminate|reflexivity].
Qed.

Lemma dec_strs_map l : dec_strs (map JStr l) = Ok l.
Proof. induction l as [|s l IH]; [reflexivity|]. cbn [map dec_strs dec_str bind]. now rewrite IH. Qed.

Lemma list_survives t om l : (om = true -> l <> Some []) -> survives (JField t om list_codec) (GList l).
Proof.
  intros E. split.
  - destruct l as [l|]; cbn [f_codec c_dec c_enc list_codec]; [now rewrite dec_strs_map|reflexivity].
  - cbn. intros O. destruct l as [[|]|]; try reflexivity; [|discriminate]. exfalso. now apply E.
Qed.

Lemma raw_survives t om j : survives (JField t om raw_codec) (GRaw j).
Proof. split; [reflexivity|]. cbn. destruct j; try discriminate. reflexivity. Qed.

(** ** Policies *)
Lemma dec_entries_map m : forall acc, NoDup (keys acc ++ keys m) -> Forall (fun kv => entry_ok (snd kv)) m ->
  dec_entries (map (fun kv => (fst kv, match snd kv with Some e => JObj e | None => JNull end)) m) acc = Ok (acc ++ m)%list.
Proof.
  induction m as [|[k [e|]] m IH]; intros acc N F; cbn [map dec_entries fst snd].
  - now rewrite app_nil_r.
  - inversion F as [|? ? Fe Fm]; subst. cbn in Fe. rewrite (as_map_id e Fe).
    cbn [keys map fst] in N. assert (N' := N). apply NoDup_remove_2 in N'.
    rewrite insert_app by (apply lookup_None; intros H; apply N', in_or_app; now left).
    rewrite IH; [now rewrite <- app_assoc| |exact Fm].
    unfold keys. rewrite map_app. cbn. rewrite <- app_assoc. exact N.
  - inversion F as [|? ? Fe Fm]; subst.
    cbn [keys map fst] in N. assert (N' := N). apply NoDup_remove_2 in N'.
    rewrite insert_app by (apply lookup_None; intros H; apply N', in_or_app; now left).
    rewrite IH; [now rewrite <- app_assoc| |exact Fm].
    unfold keys. rewrite map_app. cbn. rewrite <- app_assoc. exact N.
Qed.

Lemma policy_survives t p : policy_ok p -> survives (JField t true policy_codec) p.
Proof.
  intros H. split; cbn.
  - destruct p as [m|]; [|reflexivity]. destruct H as (_ & N & F). cbn. rewrite dec_entries_map; auto.
  - intros _. destruct p as [[|]|]; [|discriminate|reflexivity]. destruct H as (H & _). contradiction.
Qed.

Definition nodupb := fix go (l : list string) : bool := match l with [] => true | x :: r => negb (mem x r) && go r end.
Lemma nodupb_ok l : nodupb l = true -> NoDup l.
Proof.
  induction l as [|x l IH]; intros H; [constructor|]. cbn in H. apply andb_prop in H. destruct H as [A B].
  constructor; auto. apply negb_true_iff in A. now apply mem_nIn.
Qed.

Lemma policies_distinct : distinct_names policies_fields.
Proof. apply nodupb_ok. vm_compute. reflexivity. Qed.
Lemma types_distinct fs : In fs extra_types -> distinct_names fs.
Proof. intros H. apply nodupb_ok. repeat destruct H as [<-|H]; try (vm_compute; reflexivity). contradiction. Qed.

Theorem policies_roundtrip known :
  List.length known = 6 -> Forall policy_ok known ->
  unmarshal_policies (marshal_policies (JPolicies known [])) = Ok (JPolicies known []).
Proof.
  intros L F. unfold unmarshal_policies.
  pose proof (marshal_roundtrip policies_fields known [] policies_distinct) as R.
  unfold marshal, decode in R. unfold marshal_policies. cbn [jp_known jp_extra map].
  rewrite R; [reflexivity| |split; [constructor|intros ? []]].
  do 6 (destruct known as [|? known]; [discriminate|]). destruct known; [|discriminate].
  repeat match goal with H : Forall _ (_ :: _) |- _ => inversion H; subst; clear H end.
  repeat constructor; now apply policy_survives.
Qed.

Theorem policies_extra_fail j k :
  ~ In k (tags policies_fields) -> claim k j <> None -> unmarshal_policies j = Err.
Proof.
  intros N H. unfold unmarshal_policies, unmarshal_with_extra. destruct j as [| | | | |o]; try reflexivity; cbn in H; try congruence.
  destruct (dec_fields policies_fields o (zeros policies_fields)) as [vs| |] eqn:D; cbn [bind]; [|reflexivity|].
  - set (x := filter _ _). assert (X : x <> []).
    { intros E. assert (L : lookup k x = lookup k (as_map o)).
      { unfold x. apply (lookup_filter_ne _ (fun y => negb (mem y (tags policies_fields)))).
        apply negb_true_iff. now apply mem_nIn. }
      rewrite lookup_as_map, E in L. cbn in L. congruence. }
    destruct x as [|[? ?] ?]; [contradiction|reflexivity].
  - exfalso. assert (G : forall (o : list (string * json)) m, dec_entries o m <> Panic).
    { induction o0 as [|[a b] o0 IH]; intros m; [discriminate|]. destruct b; cbn [dec_entries]; try discriminate; apply IH. }
    assert (P : forall p b, dec_policy p b <> Panic).
    { intros p b. destruct b; cbn; try discriminate. destruct (dec_entries _ _) eqn:E; cbn; try discriminate. now apply G in E. }
    assert (Q : forall (o : list (string * json)) vs, dec_fields policies_fields o vs <> Panic).
    { induction o0 as [|[a b] o0 IH]; intros vs; [discriminate|]. cbn [dec_fields].
      destruct (field_of (tags policies_fields) a) as [i|]; [|apply IH].
      destruct (nth_error policies_fields i) as [f|] eqn:F; [|apply IH].
      destruct (nth_error vs i) as [v|]; [|apply IH].
      apply nth_error_In in F. unfold policies_fields in F. apply in_map_iff in F. destruct F as (t & <- & _).
      cbn [f_codec c_dec policy_codec]. destruct (dec_policy v b) eqn:E; cbn [bind]; try discriminate; [apply IH|now apply P in E]. }
    now apply Q in D.
Qed.

(** ** ResolveResponse *)
Lemma insert_same {V} k (v : V) m : lookup k m = Some v -> insert k v m = m.
Proof.
  induction m as [|[a b] m IH]; [discriminate|]. cbn [lookup insert].
  destruct (String.eqb_spec k a) as [->|]; [now intros [= ->]|]. intros H. now rewrite IH.
Qed.

Lemma overlay_same x : forall a, (forall k v, In (k, v) x -> lookup k a = Some v) -> overlay a x = a.
Proof.
  induction x as [|[k v] x IH]; intros a H; [reflexivity|]. rewrite overlay_cons.
  rewrite insert_same by (apply H; now left). apply IH. intros k' v' Hx. apply H. now right.
Qed.

Lemma NoDup_app_intro {A} (l r : list A) : NoDup l -> NoDup r -> (forall x, In x l -> ~ In x r) -> NoDup (l ++ r).
Proof.
  induction l as [|x l IH]; intros N R D; [exact R|]. inversion N as [|? ? Nx Nl]; subst. cbn. constructor.
  - rewrite in_app_iff. intros [H|H]; [contradiction|]. apply (D x); [now left|exact H].
  - apply IH; auto. intros y Hy. apply D. now right.
Qed.

Theorem response_roundtrip r :
  Forall2 survives resolve_payload_fields (rr_payload r) ->
  no_clash (resolve_payload_fields ++ resolve_own_fields)%list (rr_extra r) ->
  (enc_fields resolve_payload_fields (rr_payload r) ++ rr_extra r)%list <> [] ->
  exists j, marshal_response r = Ok j /\
    unmarshal_response j zero_response =
      Ok (ResolveResponse (zeros resolve_own_fields) (rr_payload r)
            (rr_extra r ++ enc_fields resolve_own_fields (rr_own r))%list).
Proof.
  intros S [N C] NE. destruct r as [own pl x]. cbn [rr_own rr_payload rr_extra] in *.
  set (pf := resolve_payload_fields) in *. set (of := resolve_own_fields) in *.
  assert (DP : NoDup (tags pf)) by (apply nodupb_ok; vm_compute; reflexivity).
  assert (DO : NoDup (tags of)) by (apply nodupb_ok; vm_compute; reflexivity).
  assert (DPO : forall k, In k (tags pf) -> ~ In k (tags of)).
  { intros k H. repeat (destruct H as [<-|H]; [apply mem_nIn; vm_compute; reflexivity|]). contradiction. }
  assert (DPOf : forall k, In (fold_name k) (map fold_name (tags of)) -> ~ In (fold_name k) (map fold_name (tags pf))).
  { intros k H. assert (M : forall y, In y (map fold_name (tags of)) -> ~ In y (map fold_name (tags pf))).
    { intros y Hy. repeat (destruct Hy as [<-|Hy]; [apply mem_nIn; vm_compute; reflexivity|]). contradiction. }
    now apply M. }
  assert (CP : forall k, In k (keys x) -> ~ In (fold_name k) (map fold_name (tags pf))).
  { intros k Hk H. apply (C k Hk). unfold tags. rewrite map_app, map_app. apply in_or_app. now left. }
  assert (CO : forall k, In k (keys x) -> ~ In (fold_name k) (map fold_name (tags of))).
  { intros k Hk H. apply (C k Hk). unfold tags. rewrite map_app, map_app. apply in_or_app. now right. }
  assert (EX : overlay (enc_fields pf pl) x = (enc_fields pf pl ++ x)%list).
  { apply overlay_app; auto. intros k Hk H. apply enc_fields_keys in H. apply (CP k Hk). now apply in_map. }
  set (E := enc_fields pf pl) in *. set (O := enc_fields of own).
  assert (KE : forall k, In k (keys E) -> In k (tags pf)) by (intros k; apply enc_fields_keys).
  assert (KO : forall k, In k (keys O) -> In k (tags of)) by (intros k; apply enc_fields_keys).
  assert (NN : NoDup (keys ((E ++ x) ++ O)%list)).
  { unfold keys. rewrite !map_app. fold (keys E) (keys x) (keys O).
    apply NoDup_app_intro; [apply NoDup_app_intro| |]; auto.
    - now apply enc_fields_NoDup.
    - intros k H1 H2. apply (CP k H2). apply in_map. auto.
    - now apply enc_fields_NoDup.
    - intros k H1 H2. apply in_app_iff in H1. destruct H1 as [H1|H1].
      + apply (DPO k); auto.
      + apply (CO k H1). apply in_map. auto. }
  assert (EO : overlay ((E ++ x) ++ O)%list x = ((E ++ x) ++ O)%list).
  { apply overlay_same. intros k v H. apply In_lookup; [exact NN|]. apply in_or_app. left. apply in_or_app. now right. }
  exists (JObj ((E ++ x) ++ O)%list). split.
  - unfold marshal_response. cbn [rr_payload rr_extra rr_own]. fold pf of E O. rewrite EX.
    destruct (E ++ x)%list as [|e0 l0] eqn:EE; [contradiction|]. rewrite <- EE in *.
    rewrite as_map_id by exact NN. now rewrite EO.
  - unfold unmarshal_response, unmarshal_with_extra. fold pf. rewrite <- app_assoc.
    assert (CX : forall k, In k (keys (x ++ O)%list) -> ~ In (fold_name k) (map fold_name (tags pf))).
    { intros k H. unfold keys in H. rewrite map_app in H. apply in_app_iff in H. destruct H as [H|H]; [now apply CP|].
      apply DPOf. apply in_map. now apply KO. }
    pose proof (dec_enc pf [] pl pl [] (x ++ O)%list DP eq_refl (survives_becomes _ _ S) CX) as DE. cbn [app] in DE. fold E in DE. rewrite DE.
    cbn [bind]. rewrite as_map_id by (rewrite app_assoc; exact NN).
    cbn [rr_own zero_response]. do 2 f_equal. rewrite filter_app.
    rewrite (filter_ext_in _ (fun _ => false) E), (filter_ext_in _ (fun _ => true) (x ++ O)%list).
    + assert (F0 : forall (l : smap json), filter (fun _ => false) l = []) by (induction l; auto).
      assert (F1 : forall (l : smap json), filter (fun _ => true) l = l) by (induction l; cbn; congruence).
      now rewrite F0, F1.
    + intros [k j] H. cbn [fst]. apply negb_true_iff. apply mem_nIn. intros T. apply (CX k).
      * unfold keys. apply in_map_iff. now exists (k, j).
      * now apply in_map.
    + intros [k j] H. cbn [fst]. apply negb_false_iff. apply mem_In. apply KE. unfold keys. apply in_map_iff. now exists (k, j).
Qed.

Theorem response_payload r j r' :
  Forall2 survives resolve_payload_fields (rr_payload r) ->
  no_clash (resolve_payload_fields ++ resolve_own_fields)%list (rr_extra r) ->
  marshal_response r = Ok j -> unmarshal_response j zero_response = Ok r' ->
  rr_payload r' = rr_payload r /\ forall k v, lookup k (rr_extra r) = Some v -> lookup k (rr_extra r') = Some v.
Proof.
  intros S C M U.
  assert (NE : (enc_fields resolve_payload_fields (rr_payload r) ++ rr_extra r)%list <> []).
  { intros E. apply app_eq_nil in E. destruct E as [E1 E2]. unfold marshal_response in M. rewrite E1, E2 in M. discriminate. }
  destruct (response_roundtrip r S C NE) as (j' & M' & U'). assert (j = j') by congruence. subst j'.
  rewrite U' in U. injection U as <-. cbn. split; [reflexivity|].
  intros k v L. clear -L. induction (rr_extra r) as [|[a b] l IH]; [discriminate|]. cbn [app lookup] in *.
  destruct (String.eqb k a); auto.
Qed.

Theorem response_loses r j r' :
  marshal_response r = Ok j -> unmarshal_response j zero_response = Ok r' -> rr_own r' = zeros resolve_own_fields.
Proof.
  unfold unmarshal_response. intros _ H. apply bind_ok in H. destruct H as ([vs x] & _ & E). now injection E as <-.
Qed.

(** ** SliceOrSingleValue *)
Theorem sos_roundtrip {T} (enc : T -> json) dec l :
  (forall x, In x l -> dec (enc x) = Some x) -> (forall js, dec (JArr js) = None) ->
  unmarshal_sos dec (marshal_sos enc (Some l)) = Ok (Some l).
Proof.
  intros R A. unfold unmarshal_sos.
  assert (G : dec_all dec (map enc l) = Some l).
  { clear A. induction l as [|x l IH]; [reflexivity|]. cbn [map dec_all]. rewrite R by now left.
    rewrite IH; auto. intros y Hy. apply R. now right. }
  destruct l as [|x [|y l]]; cbn [marshal_sos].
  - now rewrite A.
  - rewrite R by now left. reflexivity.
  - rewrite A, G. reflexivity.
Qed.
