(** Proofs: how the returned chains depend on the statements served and on the time. *)
From Verif Require Import Base GoVal Policy Schema Metadata Chain Resolver SpecResolver SpecChain SpecExact ExactFacts
  SpecMonotone BaseFacts ResolverFacts.
From Coq Require Import Lia.
Local Open Scope string_scope.

Lemma name_matches_host w w' c id : w_host w' id = w_host w id -> name_matches w' c id <-> name_matches w c id.
Proof. unfold name_matches. intros ->. tauto. Qed.

Lemma constraints_weaker w w' o o' below :
  (forall id, w_host w' id = w_host w id) -> no_weaker o o' ->
  (forall c, o' = Some c -> constraints_met w' c below) -> forall c, o = Some c -> constraints_met w c below.
Proof.
  intros Hh N M c Hc. destruct (N c Hc) as [c' [E [P [Na T]]]]. specialize (M c' E). destruct M as [M1 M2 M3 M4].
  assert (Hm : forall x id, name_matches w' x id <-> name_matches w x id) by (intros; now apply name_matches_host).
  split.
  - intros m Hm1. destruct (P m Hm1) as [m' [E' L]]. specialize (M1 m' E'). lia.
  - intros n e x Hn He Hx. destruct (Na n Hn) as [n' [E' [I _]]]. rewrite <- Hm. apply (M2 n' e x E' He). now apply I.
  - intros n l e Hn Hl He. destruct (Na n Hn) as [n' [E' [_ I]]]. destruct (I l Hl) as [l' [El Il]].
    destruct (M3 n' l' e E' El He) as [x [Hx Hxm]]. exists x. split; [now apply Il | now apply Hm].
  - intros l e t Hl He Ht. destruct (T l Hl) as [l' [El Il]]. destruct (M4 l' e t El He Ht); auto.
Qed.

Lemma reworded_refl s : s = reworded s (st_jwt s) (st_constraints s).
Proof. now destruct s. Qed.

Definition hop_like (w : world) (h h' : hop) : Prop :=
  h_pos h = h_pos h' /\ h_ec h = h_ec h' /\ h_sub h' = reworded (h_sub h) (st_jwt (h_sub h')) (st_constraints (h_sub h')) /\
  forall ks, w_verify w (st_jwt (h_sub h)) ks = w_verify w (st_jwt (h_sub h')) ks.

Lemma path_restricts w w' tas p e below hs' : restricts w w' -> path_up w' tas p e below hs' ->
  exists hs, path_up w tas p e below hs /\ Forall2 (hop_like w) hs hs'.
Proof.
  intros R. induction 1 as [p e below Ha|p e below i ec s hs Ha Hn Hl Hc Hs Ht Hf Hw Hi Hu Ht' Hco _ IH].
  - exists []. split; [now constructor | constructor].
  - destruct IH as [hs0 [P F]]. destruct (re_fetch w w' R _ _ _ _ _ Hw) as [s0 [E [Er [N V]]]].
    assert (E1 : st_iss s = st_iss s0 /\ st_sub s = st_sub s0 /\ st_iat s = st_iat s0 /\ st_exp s = st_exp s0)
      by (rewrite Er; cbn; tauto). destruct E1 as [E1 [E2 [E3 E4]]].
    exists (Hop i ec s0 :: hs0). split.
    + constructor; auto; try congruence.
      * now apply (re_config w w' R).
      * rewrite <- (re_now w w' R). exact Ht.
      * rewrite <- (re_now w w' R). unfold valid_at in *. now rewrite <- E3, <- E4.
      * now apply (constraints_weaker w w' _ _ _ (re_host w w' R) N).
    + constructor; [| exact F]. unfold hop_like. cbn. auto.
Qed.

Lemma signed_by_like w w' s s' ks : restricts w w' -> (forall l, w_verify w (st_jwt s) l = w_verify w (st_jwt s') l) ->
  signed_by w' s' ks -> signed_by w s ks.
Proof.
  intros R V [k [l [E H]]]. exists k, l. split; [exact E |]. now rewrite V, <- (re_verify w w' R).
Qed.

Lemma signed_restricts w w' tas : restricts w w' -> forall hs' hs e o o',
  Forall2 (hop_like w) hs hs' ->
  match o, o' with
  | None, None => True
  | Some s, Some s' => forall ks, w_verify w (st_jwt s) ks = w_verify w (st_jwt s') ks
  | _, _ => False
  end ->
  signed_up w' tas e o' hs' -> signed_up w tas e o hs.
Proof.
  intros R. induction hs' as [|h' hs' IH]; intros hs e o o' F O S.
  - inversion F; subst. inversion S as [e0 s ks T S1 S2|]; subst. destruct o as [s0|]; [| contradiction].
    apply (su_anchor w tas e s0 ks T).
    + now apply (signed_by_like w w' e e).
    + now apply (signed_by_like w w' s0 s).
  - inversion F as [|h h0 l l0 L F']; subst. inversion S as [|e0 sub i ec s hs0 S1 S2 S3]; subst.
    destruct h as [i0 ec0 s0]. destruct L as [L1 [L2 [L3 L4]]]. cbn in L1, L2, L3, L4. subst i0 ec0.
    assert (K : st_jwks s = st_jwks s0) by (rewrite L3; reflexivity).
    constructor.
    + rewrite <- K. now apply (signed_by_like w w' e e).
    + intros s1 ->. destruct o' as [s1'|]; [| contradiction]. rewrite <- K.
      apply (signed_by_like w w' s1 s1' _ R O). now apply S2.
    + now apply (IH l ec (Some s0) (Some s)).
Qed.

Lemma like_top w : forall hs hs' e, Forall2 (hop_like w) hs hs' -> top e hs = top e hs'.
Proof.
  intros hs hs' e F. revert e. induction F as [|h h' hs hs' [_ [L _]] F IH]; intros e; [reflexivity |].
  cbn. rewrite L. apply IH.
Qed.

Lemma like_chain w hs hs' e : Forall2 (hop_like w) hs hs' -> same_but_constraints (chain_along e hs) (chain_along e hs').
Proof.
  intros F. unfold chain_along, same_but_constraints. rewrite (like_top w hs hs' e F).
  constructor; [apply reworded_refl |]. apply Forall2_app; [| constructor; [apply reworded_refl | constructor]].
  induction F as [|h h' hs hs' [_ [_ [L _]]] F IH]; constructor; auto.
Qed.

Theorem trust_chain_restricts w w' tas types start c' : restricts w w' ->
  trust_chain w' tas types start c' -> exists c, trust_chain w tas types start c /\ same_but_constraints c c'.
Proof.
  intros R [e [[Hs [s [m [E [Em ->]]]]] H]].
  assert (Hst : start_config w types start (with_metadata s (Some match types with [] => m | _ => nil_all_except m types end))).
  { split; [exact Hs |]. exists s, m. split; [now apply (re_config w w' R) | auto]. }
  set (e := with_metadata s _) in *.
  destruct H as [[-> H] | [h [hs [P [S ->]]]]].
  - exists [e]. split; [exists e; split; auto |]. constructor; [apply reworded_refl | constructor].
  - destruct (path_restricts _ _ _ _ _ _ _ R P) as [hs0 [P0 F]].
    inversion F as [|h0 h1 l l1 L F']; subst. exists (chain_along e (h0 :: l)). split.
    + exists e. split; [exact Hst |]. right. exists h0, l. split; [exact P0 |]. split; [| reflexivity].
      now apply (signed_restricts w w' tas R (h :: hs) (h0 :: l) e None None).
    + now apply (like_chain w).
Qed.

Lemma same_but_maps {A} (f : stmt -> A) (Hf : forall s j co, f (reworded s j co) = f s) c c' :
  same_but_constraints c c' -> map f c' = map f c.
Proof. induction 1 as [|s s' c c' E F IH]; [reflexivity |]. cbn. rewrite IH. now rewrite E, Hf. Qed.

Theorem same_but_metadata c c' : same_but_constraints c c' -> chain_metadata c' = chain_metadata c.
Proof.
  intros F. pose proof (same_but_maps st_policy ltac:(reflexivity) c c' F) as Ep.
  pose proof (same_but_maps st_policy_crit ltac:(reflexivity) c c' F) as Ec.
  pose proof (same_but_maps st_metadata ltac:(reflexivity) c c' F) as Em.
  assert (Eu : unsupported_crit c' = unsupported_crit c).
  { unfold unsupported_crit. rewrite !flat_map_concat_map. now rewrite Ec. }
  destruct F as [|s s' c c' E F]; [reflexivity |]. destruct F as [|s1 s1' c c' E1 F].
  - cbn in Em |- *. now injection Em as ->.
  - unfold chain_metadata. rewrite Eu, Ep. injection Em as -> _ _. reflexivity.
Qed.

Theorem same_but_expires c c' : same_but_constraints c c' -> expires_at c' = expires_at c.
Proof.
  intros F. pose proof (same_but_maps st_exp ltac:(reflexivity) c c' F) as E.
  destruct F as [|s s' c c' H F]; [reflexivity |]. cbn in E |- *. injection E as -> E. clear H F.
  revert E. generalize (st_exp s). revert c. induction c' as [|x' c' IH]; intros [|x c] t E; try discriminate; [reflexivity |].
  cbn in E |- *. injection E as Ex E. rewrite Ex. now apply IH.
Qed.

(** ** Taking statements away does not make resolution run longer *)

Lemma check_restricts w w' d types ids o o' : (forall id, w_host w' id = w_host w id) -> no_weaker o o' ->
  check_constraints w' d types ids o' = true -> check_constraints w d types ids o = true.
Proof.
  intros Hh N. destruct o as [c|]; [| reflexivity]. destruct (N c eq_refl) as [c' [-> [P [Na T]]]].
  cbn [check_constraints]. rewrite !Bool.andb_true_iff, !Bool.negb_true_iff. intros [[H1 H2] H3].
  assert (Hm : forall x id, match_naming w' x id = match_naming w x id) by (intros; unfold match_naming; now rewrite Hh).
  split; [split |].
  - destruct (co_max_path c) as [m|]; [| reflexivity]. destruct (P m eq_refl) as [m' [E L]]. rewrite E in H1.
    apply Z.ltb_ge in H1. apply Z.ltb_ge. lia.
  - destruct (co_naming c) as [n|]; [| reflexivity]. destruct (Na n eq_refl) as [n' [E [I J]]]. rewrite E in H2.
    unfold check_naming in *. rewrite forallb_forall in *. intros id Hid. specialize (H2 id Hid).
    rewrite Bool.andb_true_iff, Bool.negb_true_iff in *. destruct H2 as [H2 H4]. split.
    + apply Bool.not_true_iff_false. intros X. apply existsb_exists in X. destruct X as [x [Hx X]].
      apply Bool.not_true_iff_false in H2. apply H2. apply existsb_exists. exists x. rewrite Hm. split; [now apply I | exact X].
    + destruct (nc_permitted n) as [l|]; [| reflexivity]. destruct (J l eq_refl) as [l' [El Il]]. rewrite El in H4.
      apply existsb_exists in H4. destruct H4 as [x [Hx X]]. rewrite Hm in X. apply existsb_exists. exists x. auto.
  - destruct (co_types c) as [l|]; [| reflexivity]. destruct (T l eq_refl) as [l' [El Il]]. rewrite El in H3.
    destruct (subtract types (l ++ ["federation_entity"])%list) as [|x r] eqn:Es; [reflexivity |]. exfalso.
    assert (X : In x (subtract types (l ++ ["federation_entity"])%list)) by (rewrite Es; now left).
    unfold subtract in *. apply filter_In in X. destruct X as [X1 X2].
    destruct (filter _ _) as [|y r'] eqn:Ef in H3; [| discriminate].
    assert (Y : In x (filter (fun v => negb (mem v (l' ++ ["federation_entity"])%list)) types)).
    { apply filter_In. split; [exact X1 |]. rewrite Bool.negb_true_iff in *. apply Bool.not_true_iff_false in X2.
      apply Bool.not_true_iff_false. intros Z. apply X2. apply mem_In in Z. apply mem_In. rewrite in_app_iff in *.
      destruct Z as [Z|Z]; [left; now apply Il | now right]. }
    rewrite Ef in Y. contradiction.
Qed.

Lemma hint_restricts w w' p e d types ids a ec s' : restricts w w' ->
  hint_step w' p e d types ids a = Some (ec, s') -> exists s, hint_step w p e d types ids a = Some (ec, s).
Proof.
  intros R. unfold hint_step. destruct (mem a ids); [discriminate |].
  destruct (w_config w' p a) as [ec'|] eqn:Ec; [| discriminate]. rewrite (re_config w w' R _ _ _ Ec).
  rewrite !(re_now w w' R). destruct (_ || _)%bool; [discriminate |]. destruct (String.eqb _ ""); [discriminate |].
  destruct (w_fetch w' p _ _ _) as [s1|] eqn:Ef; [| discriminate].
  destruct (re_fetch w w' R _ _ _ _ _ Ef) as [s0 [E [Er [N _]]]]. rewrite E.
  assert (E1 : st_iss s1 = st_iss s0 /\ st_sub s1 = st_sub s0 /\ st_iat s1 = st_iat s0 /\ st_exp s1 = st_exp s0)
    by (rewrite Er; cbn; tauto). destruct E1 as [E1 [E2 [E3 E4]]].
  assert (Et : forall t, time_valid t s1 = time_valid t s0) by (intros; unfold time_valid; now rewrite E3, E4).
  rewrite E1, E2, Et. destruct (_ || _)%bool; [discriminate |].
  destruct (check_constraints w' d types ids (st_constraints s1)) eqn:C; [| discriminate].
  rewrite (check_restricts w w' _ _ _ _ _ (re_host w w' R) N C). cbn. intros [= -> _]. now exists s0.
Qed.

Lemma hints_restricts (st st' : nat -> string -> option (stmt * stmt)) (rec rec' : nat -> string -> stmt -> stmt -> option tree) :
  (forall i a ec s', st' i a = Some (ec, s') -> exists s, st i a = Some (ec, s) /\ (rec i a ec s <> None -> rec' i a ec s' <> None)) ->
  forall hs i x x', hints_loop st rec i hs x <> None -> hints_loop st' rec' i hs x' <> None.
Proof.
  intros H. induction hs as [|a hs IH]; intros i x x'; cbn; [discriminate |].
  destruct (st' i a) as [[ec s']|] eqn:E'.
  - destruct (H i a ec s' E') as [s [E K]]. rewrite E. destruct (rec i a ec s) as [t|] eqn:Er; [| congruence].
    intros L. destruct (rec' i a ec s') as [t'|] eqn:Er'; [| exfalso; now apply K].
    intros Q. destruct (hints_loop st rec (S i) hs _) as [[ts y]|] eqn:E1; [| congruence].
    match type of Q with match ?X with _ => _ end = _ => destruct X as [[ts' y']|] eqn:E2 end; [discriminate |].
    eapply (IH (S i)); [| exact E2]. rewrite E1. discriminate.
  - intros L Q. match type of Q with match ?X with _ => _ end = _ => destruct X as [[ts' y']|] eqn:E2 end; [discriminate |].
    destruct (st i a) as [[ec s]|]; [destruct (rec i a ec s); [| congruence] |];
      (match type of L with match ?X with _ => _ end <> _ => destruct X as [[ts y]|] eqn:E1 end; [| congruence];
       eapply (IH (S i)); [| exact E2]; rewrite E1; discriminate).
Qed.

Lemma resolve_restricts w w' tas : restricts w w' -> forall fuel p d types ids e sub sub',
  resolve fuel w tas p d types ids e sub <> None -> resolve fuel w' tas p d types ids e sub' <> None.
Proof.
  intros R. induction fuel as [|f IH]; intros p d types ids e sub sub'; [intros H; exact H |]. cbn [resolve].
  destruct (mem (st_iss e) (anchor_ids tas)); [discriminate |]. destruct (st_hints e) as [|a hs]; [discriminate |].
  intros H Q. match type of Q with match ?X with _ => _ end = _ => destruct X as [[ts' y']|] eqn:E' end; [discriminate |].
  match type of H with match ?X with _ => _ end <> _ => destruct X as [[ts y]|] eqn:E end; [| congruence].
  eapply hints_restricts; [| | exact E'].
  2:{ rewrite E. discriminate. }
  intros i b ec s' Hs. destruct (hint_restricts w w' _ _ _ _ _ _ _ _ R Hs) as [s Hs0]. exists s. split; [exact Hs0 |].
  apply IH.
Qed.

Theorem restricts_done fuel w w' tas types start cs : restricts w w' ->
  resolve_chains fuel w tas types start = Done (Ok cs) ->
  exists cs', resolve_chains fuel w' tas types start = Done (Ok cs') /\
    forall c', In c' cs' -> exists c, In c cs /\ same_but_constraints c c'.
Proof.
  intros R H.
  assert (X : exists cs', resolve_chains fuel w' tas types start = Done (Ok cs')).
  { apply resolve_chains_no_panic.
    - intros Hs s Hc. pose proof (re_config w w' R _ _ _ Hc) as Hc0. unfold resolve_chains, resolve_tree in H.
      apply String.eqb_neq in Hs. rewrite Hs, Hc0 in H. destruct (st_metadata s); [discriminate |]. cbn in H. discriminate.
    - unfold resolve_chains, resolve_tree in *. destruct (String.eqb start ""); [discriminate |].
      destruct (w_config w' [] start) as [s|] eqn:Hc; [| discriminate]. rewrite (re_config w w' R _ _ _ Hc) in H.
      destruct (st_metadata s) as [m|]; [| discriminate].
      match type of H with match match ?X with _ => _ end with _ => _ end = _ => destruct X as [t|] eqn:E end; [| discriminate].
      match goal with |- match match ?X with _ => _ end with _ => _ end <> _ => destruct X as [t'|] eqn:E' end; [discriminate |].
      exfalso. eapply resolve_restricts; [exact R | | exact E']. rewrite E. discriminate. }
  destruct X as [cs' X]. exists cs'. split; [exact X |]. intros c' Hc'.
  apply (chains_exact _ _ _ _ _ _ X) in Hc'. destruct (trust_chain_restricts _ _ _ _ _ _ R Hc') as [c [Hc S]].
  exists c. split; [now apply (chains_exact _ _ _ _ _ _ H) | exact S].
Qed.

Theorem restricts_valid fuel w w' tas types start cs : restricts w w' ->
  resolve_valid fuel w tas types start = Done (Ok cs) ->
  exists cs', resolve_valid fuel w' tas types start = Done (Ok cs') /\
    forall c', In c' cs' -> exists c, In c cs /\ same_but_constraints c c' /\
      chain_metadata c' = chain_metadata c /\ expires_at c' = expires_at c.
Proof.
  intros R H.
  assert (H0 : exists cs0, resolve_chains fuel w tas types start = Done (Ok cs0) /\ valid_metadata_filter cs0 = Ok cs).
  { unfold resolve_valid in H. destruct (resolve_chains fuel w tas types start) as [[cs0| |]|]; try discriminate.
    exists cs0. split; [reflexivity |]. cbn in H. congruence. }
  destruct H0 as [cs0 [H0 V]]. destruct (restricts_done _ _ _ _ _ _ _ R H0) as [cs1 [H1 S]].
  assert (P : forall l r, valid_metadata_filter l = Ok r -> forall c, In c l -> chain_metadata c <> Panic).
  { induction l as [|x l IH]; intros r E c Hc; [contradiction |]. cbn in E. destruct Hc as [<- | Hc].
    - intros X. rewrite X in E. discriminate.
    - destruct (chain_metadata x); try discriminate; [| now apply (IH r E)].
      destruct (valid_metadata_filter l) as [r'| |] eqn:El; try discriminate. now apply (IH r' eq_refl). }
  assert (Q : forall l, (forall c, In c l -> chain_metadata c <> Panic) -> exists r, valid_metadata_filter l = Ok r).
  { induction l as [|x l IH]; intros Hl; [now exists [] |]. cbn. destruct IH as [r Er]; [intros; apply Hl; now right |].
    destruct (chain_metadata x) eqn:Ex; [| | exfalso; apply (Hl x (or_introl eq_refl) Ex)].
    - rewrite Er. cbn. now exists (x :: r).
    - now exists r. }
  destruct (Q cs1) as [r Er].
  { intros c' Hc'. destruct (S c' Hc') as [c [Hc Sc]]. rewrite (same_but_metadata _ _ Sc). now apply (P cs0 cs V). }
  assert (Hr : resolve_valid fuel w' tas types start = Done (Ok r)) by (unfold resolve_valid; rewrite H1; cbn; now rewrite Er).
  exists r. split; [exact Hr |]. intros c' Hc'. apply (valid_exact _ _ _ _ _ _ Hr) in Hc'. destruct Hc' as [T [m M]].
  destruct (trust_chain_restricts _ _ _ _ _ _ R T) as [c [Tc Sc]]. exists c.
  pose proof (same_but_metadata _ _ Sc) as Em. split; [| split; [exact Sc | split; [exact Em | now apply same_but_expires]]].
  apply (valid_exact _ _ _ _ _ _ H). split; [exact Tc |]. exists m. now rewrite <- Em.
Qed.

(** ** Time *)

Lemma path_at config fetch verify host t t' tas p e below hs :
  path_up (at_time config fetch verify host t) tas p e below hs ->
  (path_up (at_time config fetch verify host t') tas p e below hs <->
   forall h, In h hs -> valid_at t' (h_ec h) /\ valid_at t' (h_sub h)).
Proof.
  induction 1 as [p e below Ha|p e below i ec s hs Ha Hn Hl Hc Hs Ht Hf Hw Hi Hu Ht' Hco P IH].
  - split; [contradiction | intros _; now constructor].
  - split.
    + intros Q. inversion Q; subst. intros h [<- | Hh]; [cbn in *; auto |]. now apply IH.
    + intros Hv. destruct (Hv _ (or_introl eq_refl)) as [V1 V2]. cbn in V1, V2. constructor; auto.
      * intros c E. destruct (Hco c E) as [M1 M2 M3 M4]. split; auto.
      * apply IH. intros h Hh. apply Hv. now right.
Qed.

Lemma signed_at config fetch verify host t t' tas e o hs :
  signed_up (at_time config fetch verify host t) tas e o hs -> signed_up (at_time config fetch verify host t') tas e o hs.
Proof. induction 1; econstructor; eauto. Qed.

Lemma path_fetched w tas p e below hs : path_up w tas p e below hs ->
  forall h, In h hs -> exists q, w_config w q (st_iss (h_sub h)) = Some (h_ec h) /\ st_iss (h_sub h) = st_iss (h_ec h).
Proof.
  induction 1; intros h0 Hh; [contradiction |]. destruct Hh as [<- | Hh]; [| auto]. cbn. exists (i :: p). split; congruence.
Qed.

Lemma top_in e h hs : exists h', In h' (h :: hs) /\ top e (h :: hs) = h_ec h'.
Proof.
  revert e h. induction hs as [|h1 hs IH]; intros e h; [exists h; split; [now left | reflexivity] |].
  destruct (IH (h_ec h) h1) as [h' [I E]]. exists h'. split; [now right | exact E].
Qed.

Lemma relied_hops config fetch verify host t tas p e below h hs (v : stmt -> Prop) :
  path_up (at_time config fetch verify host t) tas p e below (h :: hs) ->
  ((forall x, In x (h :: hs) -> v (h_ec x) /\ v (h_sub x)) <-> (forall s, relied_on config (chain_along e (h :: hs)) s -> v s)).
Proof.
  intros H. pose proof (path_fetched _ _ _ _ _ _ H) as F. cbn [w_config at_time] in F. unfold relied_on, chain_along. cbn [tl]. split.
  - intros V s [x [Hx Hs]]. apply in_app_iff in Hx. destruct Hx as [Hx | [Hx | []]].
    + apply in_map_iff in Hx. destruct Hx as [y [<- Hy]]. destruct (F y Hy) as [_ [Fy _]].
      destruct Hs as [-> | Hs]; [now apply V |]. rewrite Fy in Hs. injection Hs as <-. now apply V.
    + destruct (top_in e h hs) as [y [Hy Ey]]. rewrite Ey in Hx. subst x. destruct (F y Hy) as [_ [Fy Iy]].
      destruct Hs as [-> | Hs]; [now apply V |]. rewrite <- Iy, Fy in Hs. injection Hs as <-. now apply V.
  - intros V y Hy. destruct (F y Hy) as [_ [Fy _]]. assert (Hx : In (h_sub y) (map h_sub (h :: hs) ++ [top e (h :: hs)])%list).
    { apply in_app_iff. left. now apply in_map. }
    split; apply V; exists (h_sub y); auto.
Qed.

Lemma hops_same config fetch verify host t t' tas : forall hs hs' p p' e below,
  path_up (at_time config fetch verify host t) tas p e below hs ->
  path_up (at_time config fetch verify host t') tas p' e below hs' ->
  map h_sub hs = map h_sub hs' -> map h_ec hs = map h_ec hs'.
Proof.
  induction hs as [|h hs IH]; intros [|h' hs'] p p' e below P P' E; try discriminate; [reflexivity |].
  cbn in E. injection E as E1 E2. inversion P; subst. inversion P'; subst. cbn in *. subst.
  assert (ec = ec0) by congruence. subst. f_equal. eapply IH; eauto.
Qed.

Theorem trust_chain_at config fetch verify host t t' tas types start c :
  trust_chain (at_time config fetch verify host t) tas types start c ->
  (trust_chain (at_time config fetch verify host t') tas types start c <->
   forall s, relied_on config c s -> valid_at t' s).
Proof.
  intros [e [Hs H]].
  assert (Hs' : start_config (at_time config fetch verify host t') types start e) by exact Hs.
  destruct H as [[-> H] | [h [hs [P [S ->]]]]].
  - split; [intros _ s [x [[] _]] |]. intros _. exists e. split; [exact Hs' |]. now left.
  - rewrite <- (relied_hops _ _ _ _ _ _ _ _ _ _ _ (valid_at t') P). split.
    + intros [e' [He' [[E _] | [h' [hs' [P' [S' E]]]]]]].
      * exfalso. unfold chain_along in E. cbn in E. destruct (map h_sub hs); discriminate.
      * assert (e' = e).
        { unfold chain_along in E. now injection E. }
        subst e'. assert (Em : map h_sub (h :: hs) = map h_sub (h' :: hs')).
        { unfold chain_along in E. apply (f_equal (@tl stmt)) in E. cbn [tl] in E.
          now apply (app_inj_tail (map h_sub (h :: hs)) (map h_sub (h' :: hs'))) in E. }
        pose proof (hops_same _ _ _ _ _ _ _ _ _ _ _ _ _ P P' Em) as Ee.
        pose proof (proj1 (path_at _ _ _ _ _ t' _ _ _ _ _ P') P') as V. intros x Hx.
        assert (X : In (h_ec x, h_sub x) (combine (map h_ec (h' :: hs')) (map h_sub (h' :: hs')))).
        { rewrite <- Em, <- Ee. clear -Hx. revert Hx. generalize (h :: hs). induction l as [|y l IH]; [contradiction |].
          intros [-> | Hx]; cbn; [now left | right; auto]. }
        revert X V. clear. generalize (h' :: hs'). induction l as [|y l IH]; [contradiction |].
        intros [X | X] V; [| apply IH; [exact X | intros; apply V; now right]].
        injection X as <- <-. apply V. now left.
    + intros V. exists e. split; [exact Hs' |]. right. exists h, hs. split; [| split; [| reflexivity]].
      * now apply (path_at _ _ _ _ _ t' _ _ _ _ _ P).
      * now apply (signed_at _ _ _ _ t).
Qed.

Theorem chains_at config fetch verify host t t' tas types start fuel fuel' cs cs' c :
  resolve_chains fuel (at_time config fetch verify host t) tas types start = Done (Ok cs) ->
  resolve_chains fuel' (at_time config fetch verify host t') tas types start = Done (Ok cs') ->
  In c cs -> (In c cs' <-> forall s, relied_on config c s -> valid_at t' s).
Proof.
  intros H H' Hc. rewrite (chains_exact _ _ _ _ _ _ H' c). apply (trust_chain_at _ _ _ _ t).
  now apply (chains_exact _ _ _ _ _ _ H c).
Qed.

Theorem valid_at_time config fetch verify host t t' tas types start fuel fuel' cs cs' c :
  resolve_valid fuel (at_time config fetch verify host t) tas types start = Done (Ok cs) ->
  resolve_valid fuel' (at_time config fetch verify host t') tas types start = Done (Ok cs') ->
  In c cs -> (In c cs' <-> forall s, relied_on config c s -> valid_at t' s).
Proof.
  intros H H' Hc. rewrite (valid_exact _ _ _ _ _ _ H' c). apply (valid_exact _ _ _ _ _ _ H c) in Hc. destruct Hc as [T M].
  rewrite <- (trust_chain_at _ _ _ _ t t' _ _ _ _ T). tauto.
Qed.

Theorem interval config fetch verify host t1 t2 t3 tas types start fuel1 fuel2 fuel3 cs1 cs2 cs3 c :
  (t1 <= t2)%Z -> (t2 <= t3)%Z ->
  resolve_valid fuel1 (at_time config fetch verify host t1) tas types start = Done (Ok cs1) ->
  resolve_valid fuel2 (at_time config fetch verify host t2) tas types start = Done (Ok cs2) ->
  resolve_valid fuel3 (at_time config fetch verify host t3) tas types start = Done (Ok cs3) ->
  In c cs1 -> In c cs3 -> In c cs2.
Proof.
  intros L1 L2 H1 H2 H3 C1 C3. apply (valid_at_time _ _ _ _ _ _ _ _ _ _ _ _ _ _ H1 H2 C1).
  pose proof (proj1 (valid_at_time _ _ _ _ _ _ _ _ _ _ _ _ _ _ H1 H3 C1) C3) as V3.
  pose proof (proj1 (valid_at_time _ _ _ _ _ _ _ _ _ _ _ _ _ _ H1 H1 C1) C1) as V1.
  intros s Hs. destruct (V1 s Hs) as [A B], (V3 s Hs) as [A' B']. unfold valid_at. lia.
Qed.

(** ** Other entities *)

Lemma constraints_host w w' c below : (forall id, w_host w' id = w_host w id) -> constraints_met w c below -> constraints_met w' c below.
Proof.
  intros Hh [M1 M2 M3 M4]. assert (Hm : forall x id, name_matches w' x id <-> name_matches w x id) by (intros; now apply name_matches_host).
  split; auto.
  - intros n e x Hn He Hx. rewrite Hm. now apply (M2 n).
  - intros n l e Hn Hl He. destruct (M3 n l e Hn Hl He) as [x [Hx X]]. exists x. split; [exact Hx | now apply Hm].
Qed.

Lemma path_speakers w w' tas ids p e below hs : same_speakers ids w w' -> (forall h, In h hs -> In (st_iss (h_sub h)) ids) ->
  path_up w tas p e below hs -> path_up w' tas p e below hs.
Proof.
  intros [S1 [S2 [S3 [S4 S5]]]] I P. induction P as [p e below Ha|p e below i ec s hs Ha Hn Hl Hc Hs Ht Hf Hw Hi Hu Ht' Hco _ IH].
  - now constructor.
  - assert (A : In (st_iss ec) ids) by (rewrite <- Hi; apply (I (Hop i ec s)); now left). constructor; auto.
    + now rewrite S1.
    + now rewrite S3.
    + now rewrite S2.
    + now rewrite S3.
    + intros c Hc'. apply (constraints_host w); auto.
    + apply IH. intros h Hh. apply I. now right.
Qed.

Lemma signed_speakers w w' tas e o hs : (forall j ks, w_verify w' j ks = w_verify w j ks) -> signed_up w tas e o hs -> signed_up w' tas e o hs.
Proof.
  intros V. assert (B : forall s ks, signed_by w s ks -> signed_by w' s ks).
  { intros s ks [k [l [E H]]]. exists k, l. split; [exact E | now rewrite V]. }
  induction 1; econstructor; eauto.
Qed.

Theorem trust_chain_speakers w w' tas types start c : same_speakers (start :: map st_iss (tl c)) w w' ->
  trust_chain w tas types start c -> trust_chain w' tas types start c.
Proof.
  intros S [e [[Hs [s [m [E [Em Ee]]]]] H]]. exists e. split.
  { split; [exact Hs |]. exists s, m. split; [| auto]. destruct S as [S1 _]. rewrite S1; [exact E | now left]. }
  destruct H as [H | [h [hs [P [Sg Ec]]]]]; [now left |]. right. exists h, hs. split; [| split; [| exact Ec]].
  - apply (path_speakers w w' tas _ _ _ _ _ S); [| exact P]. intros x Hx. right. rewrite Ec. unfold chain_along. cbn [tl].
    rewrite map_app. apply in_app_iff. left. apply in_map. now apply in_map.
  - destruct S as [_ [_ [_ [S4 _]]]]. now apply (signed_speakers w).
Qed.

Lemma speakers_sym ids w w' : same_speakers ids w w' -> same_speakers ids w' w.
Proof. intros [S1 [S2 [S3 [S4 S5]]]]. repeat split; intros; symmetry; auto. Qed.

Theorem chains_speakers fuel fuel' w w' tas types start cs cs' c :
  resolve_chains fuel w tas types start = Done (Ok cs) ->
  resolve_chains fuel' w' tas types start = Done (Ok cs') ->
  same_speakers (start :: map st_iss (tl c)) w w' -> (In c cs <-> In c cs').
Proof.
  intros H H' S. rewrite (chains_exact _ _ _ _ _ _ H c), (chains_exact _ _ _ _ _ _ H' c).
  split; apply trust_chain_speakers; [exact S | now apply speakers_sym].
Qed.

Theorem valid_speakers fuel fuel' w w' tas types start cs cs' c :
  resolve_valid fuel w tas types start = Done (Ok cs) ->
  resolve_valid fuel' w' tas types start = Done (Ok cs') ->
  same_speakers (start :: map st_iss (tl c)) w w' -> (In c cs <-> In c cs').
Proof.
  intros H H' S. rewrite (valid_exact _ _ _ _ _ _ H c), (valid_exact _ _ _ _ _ _ H' c).
  pose proof (trust_chain_speakers w w' tas types start c S). pose proof (trust_chain_speakers w' w tas types start c (speakers_sym _ _ _ S)). tauto.
Qed.
