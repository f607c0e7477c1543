(** Proofs: what a type filter changes about resolution. *)
From Verif Require Import Base GoVal Policy Schema Metadata Lookup Chain Resolver SpecResolver SpecChain SpecExact ExactFacts SpecLookup
  LookupFacts SpecMonotone BaseFacts.
From Coq Require Import Lia.
Local Open Scope string_scope.

Lemma apply_keep types t x p y : apply_one x p = Ok y -> apply_one (keep types t x) p = Ok (keep types t y).
Proof.
  unfold keep. destruct (mem t types); [auto |]. intros _. destruct p; reflexivity.
Qed.

Lemma extra_keep p types : forall l l', map_res (apply_extra p) l = Ok l' ->
  map_res (apply_extra p) (filter (fun kv => mem (fst kv) types) l) = Ok (filter (fun kv => mem (fst kv) types) l').
Proof.
  assert (K : forall kv kv', apply_extra p kv = Ok kv' -> kv' = kv).
  { intros kv kv'. unfold apply_extra. destruct (lookup (fst kv) p) as [[|]|]; congruence. }
  induction l as [|kv l IH]; intros l' H; cbn in H |- *; [now injection H as <- |].
  destruct (apply_extra p kv) as [kv'| |] eqn:E; try discriminate. cbn in H.
  destruct (map_res (apply_extra p) l) as [r| |] eqn:Er; try discriminate. cbn in H. injection H as <-.
  pose proof (K _ _ E). subst kv'. specialize (IH r eq_refl). cbn. destruct (mem (fst kv) types); [| exact IH].
  cbn. rewrite E. cbn. now rewrite IH.
Qed.

Lemma md_apply_keep m p m' types : md_apply m p = Ok m' -> md_apply (nil_all_except m types) p = Ok (nil_all_except m' types).
Proof.
  destruct p as [p|]; cbn; [| now intros [= <-]].
  destruct (apply_one (md_op m) (mp_op p)) as [a1| |] eqn:E1; try discriminate. cbn.
  destruct (apply_one (md_rp m) (mp_rp p)) as [a2| |] eqn:E2; try discriminate. cbn.
  destruct (apply_one (md_as m) (mp_as p)) as [a3| |] eqn:E3; try discriminate. cbn.
  destruct (apply_one (md_oc m) (mp_oc p)) as [a4| |] eqn:E4; try discriminate. cbn.
  destruct (apply_one (md_pr m) (mp_pr p)) as [a5| |] eqn:E5; try discriminate. cbn.
  destruct (apply_one (md_fe m) (mp_fe p)) as [a6| |] eqn:E6; try discriminate. cbn.
  destruct (map_res (apply_extra (mp_extra p)) (md_extra m)) as [x| |] eqn:E7; try discriminate. cbn. intros [= <-].
  rewrite (apply_keep types _ _ _ _ E1). cbn. rewrite (apply_keep types _ _ _ _ E2). cbn. rewrite (apply_keep types _ _ _ _ E3). cbn.
  rewrite (apply_keep types _ _ _ _ E4). cbn. rewrite (apply_keep types _ _ _ _ E5). cbn. rewrite (apply_keep types _ _ _ _ E6). cbn.
  rewrite (extra_keep _ types _ _ E7). reflexivity.
Qed.

Lemma guess_keep m types t : In t (guess_entity_types (nil_all_except m types)) -> In t (guess_entity_types m).
Proof.
  unfold guess_entity_types, nil_all_except, keep. cbn. rewrite !in_app_iff.
  destruct (mem "openid_provider" types), (mem "openid_relying_party" types), (mem "oauth_authorization_server" types),
    (mem "oauth_client" types), (mem "oauth_resource" types), (mem "federation_entity" types); cbn; tauto.
Qed.

Definition like (e e' : stmt) : Prop :=
  st_iss e' = st_iss e /\ st_sub e' = st_sub e /\ st_hints e' = st_hints e /\ st_jwt e' = st_jwt e /\ incl (types_of e') (types_of e).

(** The type constraints of the statement allow all types of [y]. *)
Definition lets (y s : stmt) : Prop :=
  forall c l t, st_constraints s = Some c -> co_types c = Some l -> In t (types_of y) -> In t l \/ t = "federation_entity".

Definition alike (hs : list hop) (x y : stmt) : Prop :=
  st_iss y = st_iss x /\ st_sub y = st_sub x /\ st_hints y = st_hints x /\ st_jwt y = st_jwt x /\
  (incl (types_of y) (types_of x) \/ forall h, In h hs -> lets y (h_sub h)).

Lemma alike_tail h hs x y : alike (h :: hs) x y -> alike hs x y.
Proof. intros [A [B [C [D [E | E]]]]]; repeat split; auto. right. intros h' Hh. apply E. now right. Qed.

Lemma path_alike w tas : forall hs p e e' below below', Forall2 (alike hs) (e :: below) (e' :: below') ->
  path_up w tas p e below hs -> path_up w tas p e' below' hs.
Proof.
  induction hs as [|h hs IH]; intros p e e' below below' F P; inversion P; subst; inversion F as [|? ? ? ? L F']; subst;
    pose proof L as L0; destruct L0 as [L1 [L2 [L3 [L4 L5]]]].
  - constructor. now rewrite L1.
  - assert (K : forall y, In y (e' :: below') -> exists x, In x (e :: below) /\ alike (Hop i ec s :: hs) x y).
    { clear -F. induction F as [|x y l l' L F IH]; [contradiction |]. intros z [<- | H]; [exists x; split; [now left | exact L] |].
      destruct (IH z H) as [x0 [He Le]]. exists x0. split; [now right | exact Le]. }
    constructor; auto.
    + now rewrite L1.
    + now rewrite L3.
    + intros y Hy. destruct (K y Hy) as [x [Hx [_ [-> _]]]]. now apply H3.
    + rewrite L1. assumption.
    + congruence.
    + intros c Hc. match goal with H : forall c, st_constraints s = Some c -> _ |- _ => specialize (H c Hc); destruct H as [M1 M2 M3 M4] end. split.
      * intros m Hm. assert (Hl : List.length (e' :: below') = List.length (e :: below)) by (clear -F; induction F; cbn; congruence).
        rewrite Hl. auto.
      * intros n y x Hn Hy Hx. destruct (K y Hy) as [z [Hz [_ [-> _]]]]. now apply (M2 n z).
      * intros n l y Hn Hl Hy. destruct (K y Hy) as [z [Hz [_ [-> _]]]]. now apply (M3 n l z).
      * intros l y t Hl Hy Ht. destruct (K y Hy) as [z [Hz [_ [_ [_ [_ [Q | Q]]]]]]]; [apply (M4 l z t Hl Hz); now apply Q |].
        apply (Q (Hop i ec s) (or_introl eq_refl) c l t Hc Hl Ht).
    + eapply IH; [| eassumption]. constructor; [repeat split; auto; left; apply incl_refl |].
      clear -F. induction F as [|x y l l' L F IH]; constructor; auto. now apply alike_tail in L.
Qed.

Lemma path_like w tas hs p e e' : like e e' -> path_up w tas p e [] hs -> path_up w tas p e' [] hs.
Proof.
  intros [A [B [C [D E]]]]. apply path_alike. constructor; [| constructor]. repeat split; auto.
Qed.

Lemma signed_like w tas e e' hs : like e e' -> hs <> [] -> signed_up w tas e None hs -> signed_up w tas e' None hs.
Proof.
  intros [_ [_ [_ [L _]]]] N S. inversion S; subst.
  constructor; auto. destruct H as [k [l [E V]]]. exists k, l. split; [exact E | now rewrite L].
Qed.

Lemma with_like s m m' : incl (guess_entity_types m') (guess_entity_types m) -> like (with_metadata s (Some m)) (with_metadata s (Some m')).
Proof. intros I. repeat split; auto. Qed.

(** The statement with its metadata restricted to the given types. *)
Lemma trust_chain_filtered w tas types start e r : types <> [] -> trust_chain w tas [] start (e :: r) ->
  exists m, st_metadata e = Some m /\ trust_chain w tas types start (with_metadata e (Some (nil_all_except m types)) :: r).
Proof.
  intros N [e0 [[Hs [s [m [E [Em Ee]]]]] H]]. subst e0. exists m.
  assert (Hst : start_config w types start (with_metadata s (Some (nil_all_except m types)))).
  { split; [exact Hs |]. exists s, m. repeat split; auto. now destruct types. }
  assert (Hl : like (with_metadata s (Some m)) (with_metadata s (Some (nil_all_except m types)))).
  { apply with_like. intros t. apply guess_keep. }
  assert (Hw : forall x, x = with_metadata s (Some m) -> with_metadata x (Some (nil_all_except m types)) = with_metadata s (Some (nil_all_except m types)))
    by (intros x ->; reflexivity).
  destruct H as [[H1 H2] | [h [hs [P [Sg Ec]]]]].
  - injection H1 as He Hr. subst r. rewrite (Hw e He). split; [rewrite He; reflexivity |].
    exists (with_metadata s (Some (nil_all_except m types))). split; [exact Hst |]. left. split; [reflexivity | exact H2].
  - unfold chain_along in Ec. injection Ec as He Hr. rewrite (Hw e He). split; [rewrite He; reflexivity |].
    exists (with_metadata s (Some (nil_all_except m types))). split; [exact Hst |]. right. exists h, hs. split; [| split].
    + eapply path_like; [exact Hl | exact P].
    + eapply signed_like; [exact Hl | discriminate | exact Sg].
    + unfold chain_along. cbn [top]. now rewrite Hr.
Qed.

Lemma metadata_filtered types e r m : types <> [] -> chain_metadata (e :: r) = Ok (Some m) -> forall m0, st_metadata e = Some m0 ->
  chain_metadata (with_metadata e (Some (nil_all_except m0 types)) :: r) = Ok (Some (nil_all_except m types)).
Proof.
  intros N H m0 E. destruct r as [|x r].
  - cbn in H |- *. rewrite E in H. injection H as <-. reflexivity.
  - unfold chain_metadata in *. assert (Eu : unsupported_crit (with_metadata e (Some (nil_all_except m0 types)) :: x :: r) = unsupported_crit (e :: x :: r)) by reflexivity.
    rewrite Eu. destruct (unsupported_crit (e :: x :: r)); [| discriminate].
    assert (Ep : map st_policy (with_metadata e (Some (nil_all_except m0 types)) :: x :: r) = map st_policy (e :: x :: r)) by reflexivity.
    rewrite Ep. destruct (merge_policies (map st_policy (e :: x :: r))) as [p| |]; try discriminate. cbn [bind] in *.
    cbn [st_metadata with_metadata] in *. rewrite E in H.
    destruct (md_apply m0 (Some p)) as [m'| |] eqn:A; try discriminate. cbn [bind] in H. injection H as <-.
    rewrite (md_apply_keep _ _ _ types A). reflexivity.
Qed.

Theorem filter_keeps fuel fuel' w tas types start cs cs' e r m : types <> [] ->
  resolve_valid fuel w tas [] start = Done (Ok cs) ->
  resolve_valid fuel' w tas types start = Done (Ok cs') ->
  In (e :: r) cs -> chain_metadata (e :: r) = Ok (Some m) ->
  exists m0' m', In (with_metadata e m0' :: r) cs' /\ chain_metadata (with_metadata e m0' :: r) = Ok (Some m') /\ restricted types m m'.
Proof.
  intros N H H' I M. apply (valid_exact _ _ _ _ _ _ H) in I. destruct I as [T _].
  destruct (trust_chain_filtered w tas types start e r N T) as [m0 [E T']].
  pose proof (metadata_filtered types e r m N M m0 E) as M'.
  exists (Some (nil_all_except m0 types)), (nil_all_except m types). split; [| split; [exact M' | apply restriction]].
  apply (valid_exact _ _ _ _ _ _ H'). split; [exact T' |]. now exists (Some (nil_all_except m types)).
Qed.

Theorem filter_keeps_chains fuel fuel' w tas types start cs cs' e r : types <> [] ->
  resolve_chains fuel w tas [] start = Done (Ok cs) ->
  resolve_chains fuel' w tas types start = Done (Ok cs') ->
  In (e :: r) cs ->
  exists m m', st_metadata e = Some m /\ In (with_metadata e (Some m') :: r) cs' /\ restricted types m m'.
Proof.
  intros N H H' I. apply (chains_exact _ _ _ _ _ _ H) in I.
  destruct (trust_chain_filtered w tas types start e r N I) as [m0 [E T']].
  exists m0, (nil_all_except m0 types). split; [exact E |]. split; [| apply restriction]. now apply (chains_exact _ _ _ _ _ _ H').
Qed.

(** ** What a type filter adds *)

Theorem trust_chain_unfiltered w tas types start e' r s : trust_chain w tas types start (e' :: r) -> w_config w [] start = Some s ->
  (forall x, In x r -> lets s x) -> exists e m', trust_chain w tas [] start (e :: r) /\ e' = with_metadata e m'.
Proof.
  intros [e0 [[Hs [s0 [m [E [Em Ee]]]]] H]] E0 A. assert (s0 = s) by congruence. subst s0. clear E0.
  exists (with_metadata s (Some m)), (Some (match types with [] => m | _ => nil_all_except m types end)).
  assert (Hst : start_config w [] start (with_metadata s (Some m))).
  { split; [exact Hs |]. exists s, m. auto. }
  assert (Ht : types_of (with_metadata s (Some m)) = types_of s) by (unfold types_of; cbn; now rewrite Em).
  destruct H as [[H1 H2] | [h [hs [P [Sg Ec]]]]].
  - injection H1 as He Hr. subst r. split; [| rewrite He, Ee; reflexivity]. exists (with_metadata s (Some m)). split; [exact Hst |].
    left. split; [reflexivity |]. rewrite Ee in H2. exact H2.
  - unfold chain_along in Ec. injection Ec as He Hr. split; [| rewrite He, Ee; reflexivity].
    exists (with_metadata s (Some m)). split; [exact Hst |]. right. exists h, hs. split; [| split].
    + eapply path_alike; [| exact P]. constructor; [| constructor]. rewrite Ee. repeat split. right.
      intros h' Hh c l t Hc Hl. rewrite Ht. refine (A (h_sub h') _ c l t Hc Hl). rewrite Hr.
      change (In (h_sub h') (map h_sub (h :: hs) ++ [top e0 (h :: hs)])%list). apply in_app_iff. left. now apply in_map.
    + rewrite Ee in Sg. inversion Sg; subst. constructor; auto.
    + unfold chain_along. cbn [top]. now rewrite Hr.
Qed.

Theorem filter_adds fuel fuel' w tas types start cs cs' e' r s :
  resolve_chains fuel w tas [] start = Done (Ok cs) ->
  resolve_chains fuel' w tas types start = Done (Ok cs') ->
  In (e' :: r) cs' -> w_config w [] start = Some s ->
  (forall x c l t, In x r -> st_constraints x = Some c -> co_types c = Some l -> In t (types_of s) -> In t l \/ t = "federation_entity") ->
  exists e m', In (e :: r) cs /\ e' = with_metadata e m'.
Proof.
  intros H H' I E A. apply (chains_exact _ _ _ _ _ _ H') in I.
  destruct (trust_chain_unfiltered w tas types start e' r s I E) as [e [m' [T Ee]]].
  { intros x Hx c l t Hc Hl Ht. now apply (A x c l t). }
  exists e, m'. split; [now apply (chains_exact _ _ _ _ _ _ H) | exact Ee].
Qed.
