(** The properties of returned chains, from the characterisation in ResolverFacts.v. *)
From Verif Require Import Base GoVal Policy Schema Metadata Chain Resolver SpecResolver BaseFacts ResolverFacts.
Local Open Scope string_scope.

Lemma valid_filter_in cs cs' c : valid_metadata_filter cs = Ok cs' ->
  In c cs' <-> In c cs /\ is_ok (chain_metadata c) = true.
Proof.
  revert cs'. induction cs as [|d cs IH]; intros cs'; cbn [valid_metadata_filter].
  - intros [= <-]. cbn. tauto.
  - destruct (chain_metadata d) eqn:E; try discriminate.
    + intros H. apply bind_ok in H. destruct H as (r & Hr & [= <-]). cbn [In]. rewrite (IH _ Hr). split.
      * intros [<-|[? ?]]; auto. rewrite E. auto.
      * intros [[<-|?] ?]; auto.
    + intros H. rewrite (IH _ H). cbn [In]. split; [tauto|]. intros [[<-|?] K]; auto. rewrite E in K. discriminate.
Qed.

Lemma returned_root w tas types start c :
  returned w tas types start c -> exists e, start_config w types start e /\ root_chain w tas e c.
Proof.
  intros (fuel & cs & [H|H] & Hc).
  - now apply (resolve_chains_spec _ _ _ _ _ _ H).
  - unfold resolve_valid in H. destruct (resolve_chains fuel w tas types start) as [[cs0| |]|] eqn:E; try discriminate.
    cbn [bind] in H. injection H as H. apply (valid_filter_in _ _ c) in H. apply H in Hc. destruct Hc as [Hc _].
    now apply (resolve_chains_spec _ _ _ _ _ _ E).
Qed.

Theorem returned_one w tas types start c :
  returned w tas types start c -> List.length c = 1 \/ 3 <= List.length c.
Proof.
  intros H. apply returned_root in H. destruct H as (e & _ & [[-> _]|(h & hs & _ & _ & ->)]); [now left|right].
  unfold chain_along. cbn [map]. simpl. rewrite app_length, map_length. simpl. lia.
Qed.

(** A returned chain of more than one statement comes from a path. *)
Lemma returned_path w tas types start c :
  returned w tas types start c -> List.length c <> 1 ->
  exists e h hs, start_config w types start e /\ path_up w tas [] e [] (h :: hs) /\
    signed_up w tas e None (h :: hs) /\ c = chain_along e (h :: hs).
Proof.
  intros H N. apply returned_root in H. destruct H as (e & S & [[-> _]|(h & hs & P & Sg & ->)]).
  - now elim N.
  - exists e, h, hs. auto.
Qed.

(** ** Signatures *)
Lemma signed_up_chain w tas e x hs :
  signed_up w tas e (Some x) hs -> signed_chain w tas (x :: map h_sub hs ++ [top e hs])%list.
Proof.
  revert e x. induction hs as [|h hs IH]; intros e x H; inversion H; subst.
  - econstructor; eassumption.
  - cbn. constructor; auto.
Qed.

Theorem chain_signed w tas types start c :
  returned w tas types start c -> List.length c <> 1 -> signed_chain w tas c.
Proof.
  intros H N. destruct (returned_path _ _ _ _ _ H N) as (e & h & hs & _ & _ & Sg & ->).
  inversion Sg; subst. unfold chain_along. cbn. constructor; auto. now apply signed_up_chain.
Qed.

(** ** Links *)
Lemma path_top w tas p e below hs :
  path_up w tas p e below hs -> (hs = [] -> st_sub e = st_iss e) ->
  In (st_iss (top e hs)) (anchor_ids tas) /\ st_sub (top e hs) = st_iss (top e hs).
Proof.
  induction 1; intros E; cbn [top h_ec]; auto.
Qed.

Theorem chain_anchored w tas types start c :
  returned w tas types start c -> List.length c <> 1 -> ends_at_anchor tas c.
Proof.
  intros H N. destruct (returned_path _ _ _ _ _ H N) as (e & h & hs & _ & P & _ & ->).
  apply path_top in P; [|discriminate]. destruct P as [A E].
  unfold chain_along. exists (e :: map h_sub (h :: hs)), (top e (h :: hs)). split; [reflexivity|].
  split; auto. unfold anchor_ids in A. apply in_map_iff in A. destruct A as (ta & E' & Hin). eauto.
Qed.

Lemma linked_cons x b c : st_iss x = st_sub b -> linked (b :: c) -> linked (x :: b :: c).
Proof.
  intros E L [|y pre] a b' post Eq.
  - now injection Eq as <- <- _.
  - injection Eq as _ Eq. eapply L. exact Eq.
Qed.
Lemma linked_one b : linked [b].
Proof. intros [|x [|y pre]] a b' post [=]. Qed.

Lemma path_linked w tas p e below hs x :
  path_up w tas p e below hs -> st_iss x = st_iss e -> (hs = [] -> st_sub e = st_iss e) ->
  linked (x :: map h_sub hs ++ [top e hs])%list.
Proof.
  intros P. revert x. induction P; intros x Ex E; cbn [map app top h_sub h_ec].
  - apply linked_cons; [|apply linked_one]. rewrite E; auto.
  - apply linked_cons; [congruence|]. apply IHP; auto.
Qed.

Theorem chain_linked w tas types start c :
  returned w tas types start c -> linked c.
Proof.
  intros H. apply returned_root in H. destruct H as (e & _ & [[-> _]|(h & hs & P & _ & ->)]).
  - apply linked_one.
  - unfold chain_along. eapply path_linked; eauto. discriminate.
Qed.

(** ** Time *)
Lemma path_times w tas p e below hs :
  path_up w tas p e below hs -> (hs = [] -> exists q b, valid_at (w_now w q b) e) ->
  forall s, In s (map h_sub hs ++ [top e hs])%list -> exists q b, valid_at (w_now w q b) s.
Proof.
  induction 1; intros E s' Hs; cbn [map app top h_sub h_ec In] in Hs.
  - destruct Hs as [<-|[]]. auto.
  - destruct Hs as [<-|Hs]; [eauto|]. apply IHpath_up; eauto.
Qed.

Theorem chain_times w tas types start c s r :
  returned w tas types start c -> c = s :: r ->
  forall x, In x r -> exists p b, valid_at (w_now w p b) x.
Proof.
  intros H E x Hx. apply returned_root in H. destruct H as (e & _ & [[-> _]|(h & hs & P & _ & ->)]).
  - injection E as <- <-. destruct Hx.
  - unfold chain_along in E. injection E as <- <-. eapply path_times; eauto. discriminate.
Qed.

(** ** Subject *)
Theorem chain_subject w tas types start c :
  returned w tas types start c ->
  exists e r s, c = e :: r /\ w_config w [] start = Some s /\ st_jwt e = st_jwt s /\
    st_iss e = st_iss s /\ st_sub e = st_sub s /\
    (st_iss s = start -> st_sub s = start -> st_iss e = start /\ st_sub e = start).
Proof.
  intros H. apply returned_root in H. destruct H as (e & (_ & s & m & EC & _ & ->) & R).
  set (e := with_metadata s _) in *.
  assert (exists r, c = e :: r) as (r & ->).
  { destruct R as [[-> _]|(h & hs & _ & _ & ->)]; eexists; reflexivity. }
  exists e, r, s. do 5 (split; [now auto|]). intros E1 E2. split; [exact E1|exact E2].
Qed.

(** ** Loops *)
Lemma removelast_snoc {A} (l : list A) x : removelast (l ++ [x])%list = l.
Proof. apply removelast_last. Qed.

Lemma path_nodup w tas p e below hs :
  path_up w tas p e below hs -> NoDup (map st_sub (e :: below)) ->
  NoDup (rev (map st_iss (map h_sub hs)) ++ map st_sub (e :: below))%list.
Proof.
  induction 1; intros N; [exact N|].
  cbn [map h_sub rev]. rewrite <- app_assoc. cbn [app].
  replace (st_iss s) with (st_sub ec) by congruence.
  change (st_sub ec :: st_sub e :: map st_sub below) with (map st_sub (ec :: e :: below)).
  apply IHpath_up. cbn [map]. constructor; auto.
  rewrite H3. change (st_sub e :: map st_sub below) with (map st_sub (e :: below)).
  intros Hin. apply in_map_iff in Hin. destruct Hin as (x & Ex & Hx). exact (H1 x Hx Ex).
Qed.

Theorem chain_loop_free w tas types start c s :
  returned w tas types start c ->
  w_config w [] start = Some s -> st_iss s = st_sub s ->
  NoDup (map st_iss (removelast c)).
Proof.
  intros H EC E. apply returned_root in H.
  destruct H as (e & (_ & s' & m & EC' & _ & ->) & R). rewrite EC in EC'. injection EC' as <-.
  set (e := with_metadata s _) in *. assert (Ee : st_iss e = st_sub e) by exact E. clearbody e.
  destruct R as [[-> _]|(h & hs & P & _ & ->)].
  - constructor.
  - apply path_nodup in P; [|repeat constructor; intros []].
    unfold chain_along. rewrite app_comm_cons, removelast_snoc. cbn [map] in *. rewrite Ee.
    apply NoDup_rev in P. rewrite rev_app_distr, rev_involutive in P. exact P.
Qed.

(** ** Constraints *)
Lemma path_constraints w tas p e below hs :
  path_up w tas p e below hs ->
  forall hs1 h hs2, hs = (hs1 ++ h :: hs2)%list ->
  forall c, st_constraints (h_sub h) = Some c ->
  constraints_met w c (rev (map h_ec hs1) ++ e :: below)%list.
Proof.
  induction 1; intros hs1 h hs2 Eq c Hc; [destruct hs1; discriminate|].
  destruct hs1 as [|h1 hs1].
  - injection Eq as <- <-. cbn. now apply H10.
  - injection Eq as <- Eq. cbn [map rev h_ec]. rewrite <- app_assoc. cbn [app]. eapply IHpath_up; eauto.
Qed.

(** A subordinate statement of a chain along a path is that of one of the hops. *)
Lemma chain_split (e : stmt) (hs : list hop) (lower upper : chain) (s : stmt) :
  chain_along e hs = (lower ++ s :: upper)%list -> lower <> [] -> upper <> [] ->
  exists hs1 h hs2, hs = (hs1 ++ h :: hs2)%list /\ s = h_sub h /\ lower = e :: map h_sub hs1.
Proof.
  unfold chain_along. destruct lower as [|x lower]; [congruence|]. intros Eq _ NU. injection Eq as <- Eq.
  assert (exists up z, upper = (up ++ [z])%list) as (up & z & ->).
  { exists (removelast upper), (last upper s). now apply app_removelast_last. }
  rewrite app_comm_cons, app_assoc in Eq. apply app_inj_tail in Eq. destruct Eq as [Eq _].
  revert hs Eq. induction lower as [|y lower IH]; intros [|h hs] Eq; try discriminate.
  - injection Eq as E1 E2. exists [], h, hs. auto.
  - injection Eq as E1 E2. destruct (IH hs E2) as (hs1 & h' & hs2 & -> & Es & El). exists (h :: hs1), h', hs2.
    split; [reflexivity|]. split; auto. cbn. injection El as El. congruence.
Qed.

(** The entity configurations below the issuer of a subordinate statement. *)
Lemma path_lower w tas p e below hs :
  path_up w tas p e below hs ->
  forall hs1 h hs2, hs = (hs1 ++ h :: hs2)%list ->
  (st_iss e :: map st_iss (map h_sub hs1) = map st_sub (map h_sub hs1 ++ [h_sub h]))%list /\
  map st_sub (map h_ec hs1) = map st_iss (map h_sub hs1) /\
  Forall (fun h => exists p, w_config w p (st_iss (h_ec h)) = Some (h_ec h)) hs1.
Proof.
  induction 1; intros hs1 h hs2 Eq; [destruct hs1; discriminate|].
  destruct hs1 as [|h1 hs1].
  - injection Eq as <- <-. cbn. rewrite H8. auto.
  - injection Eq as <- Eq. destruct (IHpath_up hs1 h hs2 Eq) as (E1 & E2 & F). cbn [map app h_sub h_ec]. split; [|split].
    + rewrite <- E1. congruence.
    + congruence.
    + constructor; eauto.
Qed.

Lemma subordinate_hop w tas types start c lower s :
  returned w tas types start c -> subordinate c lower s ->
  exists e hs1 h hs2, start_config w types start e /\ path_up w tas [] e [] (hs1 ++ h :: hs2) /\
    s = h_sub h /\ lower = e :: map h_sub hs1.
Proof.
  intros H (upper & Ec & NL & NU). apply returned_root in H.
  destruct H as (e & SC & [[-> _]|(h & hs & P & _ & ->)]).
  - exfalso. destruct lower as [|x lower]; [congruence|]. injection Ec as _ Ec. destruct lower; discriminate.
  - destruct (chain_split e (h :: hs) lower upper s Ec NL NU) as (hs1 & h' & hs2 & E & Es & El).
    rewrite E in P. exists e, hs1, h', hs2. auto.
Qed.

Theorem chain_max_path w tas types start c lower s co m :
  returned w tas types start c -> subordinate c lower s ->
  st_constraints s = Some co -> co_max_path co = Some m ->
  (Z.of_nat (List.length lower) - 1 <= m)%Z.
Proof.
  intros H S Ec Em. destruct (subordinate_hop _ _ _ _ _ _ _ H S) as (e & hs1 & h & hs2 & _ & P & -> & ->).
  destruct (path_constraints _ _ _ _ _ _ P hs1 h hs2 eq_refl co Ec) as [C _ _ _].
  specialize (C m Em). rewrite app_length, rev_length, map_length in C. cbn [List.length] in *. rewrite map_length. lia.
Qed.

Lemma lower_subjects w tas types start e hs1 h hs2 :
  start_config w types start e -> self_named w start ->
  path_up w tas [] e [] (hs1 ++ h :: hs2) ->
  forall x, In x (map st_sub ((e :: map h_sub hs1) ++ [h_sub h])%list) <->
            exists b, In b (rev (map h_ec hs1) ++ [e])%list /\ x = st_sub b.
Proof.
  intros (_ & s0 & m & EC & _ & ->) SN P x.
  pose proof (SN _ EC) as E0. set (e := with_metadata s0 _) in *.
  assert (Ee : st_iss e = st_sub e) by exact E0. clearbody e.
  destruct (path_lower _ _ _ _ _ _ P hs1 h hs2 eq_refl) as (E1 & E2 & _).
  cbn [app map]. rewrite <- E1, <- E2. cbn [In]. rewrite Ee. split.
  - intros [<-|[<-|Hx]].
    + exists e. split; auto. apply in_app_iff. right. now left.
    + exists e. split; auto. apply in_app_iff. right. now left.
    + apply in_map_iff in Hx. destruct Hx as (b & <- & Hb). exists b. split; auto.
      apply in_app_iff. left. now apply -> in_rev.
  - intros (b & Hb & ->). apply in_app_iff in Hb. destruct Hb as [Hb|[<-|[]]]; auto.
    right. right. apply in_map. now apply in_rev.
Qed.

Theorem chain_naming w tas types start c lower s co n x :
  self_named w start ->
  returned w tas types start c -> subordinate c lower s ->
  st_constraints s = Some co -> co_naming co = Some n ->
  In x (lower ++ [s])%list ->
  (forall y, In y (nc_excluded n) -> ~ name_matches w y (st_sub x)) /\
  (forall l, nc_permitted n = Some l -> exists y, In y l /\ name_matches w y (st_sub x)).
Proof.
  intros SN H S Ec En Hx. destruct (subordinate_hop _ _ _ _ _ _ _ H S) as (e & hs1 & h & hs2 & SC & P & -> & ->).
  destruct (path_constraints _ _ _ _ _ _ P hs1 h hs2 eq_refl co Ec) as [_ C1 C2 _].
  apply (in_map st_sub) in Hx. apply (lower_subjects _ _ _ _ _ _ _ _ SC SN P) in Hx.
  destruct Hx as (b & Hb & ->). split.
  - intros y Hy. eapply C1; eauto.
  - intros l El. eapply C2; eauto.
Qed.

Theorem chain_types w tas types start c lower s co l :
  returned w tas types start c -> subordinate c lower s ->
  st_constraints s = Some co -> co_types co = Some l ->
  exists e rest configs,
    lower = e :: rest /\
    map st_sub configs = map st_iss rest /\
    (forall b, In b configs -> exists p, w_config w p (st_iss b) = Some b /\ st_iss b = st_sub b) /\
    forall b t, In b (e :: configs) -> In t (types_of b) -> In t l \/ t = "federation_entity".
Proof.
  intros H S Ec El. destruct (subordinate_hop _ _ _ _ _ _ _ H S) as (e & hs1 & h & hs2 & SC & P & -> & ->).
  destruct (path_constraints _ _ _ _ _ _ P hs1 h hs2 eq_refl co Ec) as [_ _ _ C].
  destruct (path_lower _ _ _ _ _ _ P hs1 h hs2 eq_refl) as (E1 & E2 & F).
  exists e, (map h_sub hs1), (map h_ec hs1). split; [reflexivity|]. split; [exact E2|]. split.
  - assert (G : Forall (fun h => st_iss (h_ec h) = st_sub (h_ec h)) hs1).
    { clear -P. remember (hs1 ++ h :: hs2)%list as hs eqn:Eq. revert hs1 Eq.
      induction P; intros [|h1 hs1] Eq; try discriminate; auto.
      injection Eq as <- Eq. constructor; auto. }
    intros b Hb. apply in_map_iff in Hb. destruct Hb as (h0 & <- & Hh).
    rewrite Forall_forall in F, G. destruct (F h0 Hh) as (p & Hp). exists p. auto.
  - intros b t Hb. eapply C; eauto. apply in_app_iff. destruct Hb as [<-|Hb]; [right; now left|left].
    now apply -> in_rev.
Qed.

(** ** Completeness *)
Theorem path_returned fuel w tas types start cs e hs :
  resolve_chains fuel w tas types start = Done (Ok cs) ->
  start_config w types start e -> hs <> [] ->
  path_up w tas [] e [] hs -> signed_up w tas e None hs ->
  In (chain_along e hs) cs.
Proof.
  intros H SC N P Sg. apply (resolve_chains_spec _ _ _ _ _ _ H). exists e. split; auto.
  right. destruct hs as [|h hs]; [congruence|]. exists h, hs. auto.
Qed.

Theorem path_returned_valid fuel w tas types start cs e hs m :
  resolve_valid fuel w tas types start = Done (Ok cs) ->
  start_config w types start e -> hs <> [] ->
  path_up w tas [] e [] hs -> signed_up w tas e None hs ->
  chain_metadata (chain_along e hs) = Ok m ->
  In (chain_along e hs) cs.
Proof.
  unfold resolve_valid. destruct (resolve_chains fuel w tas types start) as [[cs0| |]|] eqn:E; try discriminate.
  cbn [bind]. intros [= H] SC N P Sg Em. apply (valid_filter_in _ _ (chain_along e hs)) in H. apply H. split.
  - eapply path_returned; eauto.
  - now rewrite Em.
Qed.

(** Exactly the chains along valid signed paths, once the starting entity names superiors
    and is no anchor itself. *)
Theorem returned_exactly fuel w tas types start cs e :
  resolve_chains fuel w tas types start = Done (Ok cs) ->
  start_config w types start e -> st_hints e <> [] -> ~ In (st_iss e) (anchor_ids tas) ->
  forall c, In c cs <-> exists hs, path_up w tas [] e [] hs /\ signed_up w tas e None hs /\ c = chain_along e hs.
Proof.
  intros H SC NH NA c. rewrite (resolve_chains_spec _ _ _ _ _ _ H). split.
  - intros (e' & SC' & R).
    assert (e' = e).
    { destruct SC as (_ & s & m & E1 & E2 & ->), SC' as (_ & s' & m' & E1' & E2' & ->).
      rewrite E1 in E1'. injection E1' as <-. rewrite E2 in E2'. injection E2' as <-. reflexivity. }
    subst e'. destruct R as [[_ [?|?]]|(h & hs & P & Sg & ->)]; try contradiction. eauto.
  - intros (hs & P & Sg & ->). exists e. split; auto. right.
    destruct hs as [|h hs]; [inversion Sg|]. eauto.
Qed.

(** ** Termination *)
Definition fresh_in (U ids : list string) : nat := List.length (filter (fun u => negb (mem u ids)) U).

Lemma filter_le {A} (f g : A -> bool) l :
  (forall x, In x l -> f x = true -> g x = true) -> List.length (filter f l) <= List.length (filter g l).
Proof.
  induction l as [|x l IH]; intros H; cbn [filter]; auto.
  specialize (IH (fun y Hy => H y (or_intror Hy))).
  destruct (f x) eqn:E.
  - rewrite (H x (or_introl eq_refl) E). cbn. lia.
  - destruct (g x); cbn; lia.
Qed.

Lemma fresh_less U ids a : In a U -> mem a ids = false -> fresh_in U (a :: ids) < fresh_in U ids.
Proof.
  unfold fresh_in. intros Hin Hm. induction U as [|u U IH]; [destruct Hin|].
  cbn [filter]. change (mem u (a :: ids)) with (String.eqb u a || mem u ids).
  destruct Hin as [->|Hin].
  - rewrite String.eqb_refl, Hm. cbn.
    apply Nat.lt_succ_r. apply filter_le. intros x _. change (mem x (a :: ids)) with (String.eqb x a || mem x ids).
    destruct (String.eqb x a); cbn; [discriminate|auto].
  - specialize (IH Hin). destruct (String.eqb u a) eqn:E; cbn [orb negb].
    + apply String.eqb_eq in E. subst u. rewrite Hm. cbn [negb List.length]. lia.
    + destruct (mem u ids); cbn [negb List.length]; lia.
Qed.

Lemma hints_loop_done step rec i hs x :
  (forall k a ec s, In a hs -> step k a = Some (ec, s) -> rec k a ec s <> None) ->
  hints_loop step rec i hs x <> None.
Proof.
  revert i x. induction hs as [|a hs IH]; intros i x H; cbn [hints_loop]; [discriminate|].
  assert (H' : forall k a ec s, In a hs -> step k a = Some (ec, s) -> rec k a ec s <> None)
    by (intros; apply H; simpl; auto).
  destruct (step i a) as [[ec s]|] eqn:E.
  - pose proof (H i a ec s (or_introl eq_refl) E) as N. destruct (rec i a ec s); [|congruence].
    destruct (hints_loop _ _ _ _ _) as [[? ?]|] eqn:EL; [discriminate|]. now apply IH in EL.
  - destruct (hints_loop _ _ _ _ _) as [[? ?]|] eqn:EL; [discriminate|]. now apply IH in EL.
Qed.

Lemma hint_step_config w p e d types ids a ec s :
  hint_step w p e d types ids a = Some (ec, s) -> mem a ids = false /\ w_config w p a = Some ec.
Proof.
  unfold hint_step. destruct (mem a ids); [discriminate|].
  destruct (w_config w p a) as [ec'|]; [|discriminate].
  destruct (_ || _); [discriminate|]. destruct (String.eqb _ ""); [discriminate|].
  destruct (w_fetch _ _ _ _ _); [|discriminate]. destruct (_ || _); [discriminate|].
  destruct (negb _); [discriminate|]. intros [= <- <-]. auto.
Qed.

Lemma resolve_terminates U w tas :
  (forall p a ec, w_config w p a = Some ec -> incl (st_hints ec) U) ->
  forall fuel p d types ids e sub,
    incl (st_hints e) U -> fresh_in U ids < fuel -> resolve fuel w tas p d types ids e sub <> None.
Proof.
  intros HU. induction fuel as [|f IH]; intros p d types ids e sub HE HF; [lia|].
  cbn [resolve]. destruct (mem _ _); [discriminate|].
  destruct (st_hints e) as [|h0 hs0] eqn:EH; [discriminate|]. rewrite <- EH in *.
  destruct (hints_loop _ _ _ _ _) as [[ts x']|] eqn:EL; [discriminate|]. exfalso. revert EL.
  apply hints_loop_done. intros k a ec s Ha Hs. apply hint_step_config in Hs. destruct Hs as [Hm Hc].
  apply IH; [eapply HU; eauto|]. pose proof (fresh_less U ids a (HE a Ha) Hm). lia.
Qed.

(** The network as a whole names only finitely many entities as superiors. *)
Theorem finite_terminates U w tas types start fuel :
  (forall p a ec, w_config w p a = Some ec -> incl (st_hints ec) U) ->
  List.length U < fuel ->
  exists r, resolve_valid fuel w tas types start = Done r.
Proof.
  intros HU HF. unfold resolve_valid, resolve_chains, resolve_tree.
  destruct (String.eqb start ""); [eauto|]. destruct (w_config w [] start) as [s|] eqn:EC; [|eauto].
  destruct (st_metadata s) as [m|]; [|eauto].
  destruct (resolve _ _ _ _ _ _ _ _ _) as [t|] eqn:ER; [eauto|]. exfalso. revert ER.
  apply (resolve_terminates U); auto.
  - cbn. eapply HU; eauto.
  - unfold fresh_in.
    assert (K : forall (f : string -> bool) l, List.length (filter f l) <= List.length l)
      by (intros f l; induction l as [|y l IHl]; cbn; [lia|destruct (f y); cbn; lia]).
    eapply Nat.le_lt_trans; [apply K|exact HF].
Qed.

(** More fuel gives the same result. *)
Lemma hints_loop_mono step rec rec' i hs x r :
  (forall k a ec s t, rec k a ec s = Some t -> rec' k a ec s = Some t) ->
  hints_loop step rec i hs x = Some r -> hints_loop step rec' i hs x = Some r.
Proof.
  intros H. revert i x r. induction hs as [|a hs IH]; intros i x r; cbn [hints_loop]; auto.
  destruct (step i a) as [[ec s]|].
  - destruct (rec i a ec s) as [t|] eqn:E; [|discriminate]. rewrite (H _ _ _ _ _ E).
    destruct (hints_loop step rec _ _ _) as [p|] eqn:EL; [|discriminate]. now rewrite (IH _ _ _ EL).
  - destruct (hints_loop step rec _ _ _) as [p|] eqn:EL; [|discriminate]. now rewrite (IH _ _ _ EL).
Qed.

Lemma resolve_mono f f' w tas : f <= f' ->
  forall p d types ids e sub t, resolve f w tas p d types ids e sub = Some t ->
    resolve f' w tas p d types ids e sub = Some t.
Proof.
  revert f'. induction f as [|f IH]; intros f' L p d types ids e sub t; [discriminate|].
  destruct f' as [|f']; [lia|]. cbn [resolve]. destruct (mem _ _); auto. destruct (st_hints e) as [|h hs]; auto.
  destruct (hints_loop _ _ 0 (h :: hs) _) as [[ts x']|] eqn:EL; [|discriminate]. intros [= <-].
  rewrite (hints_loop_mono _ _ (fun i a ec s => resolve f' w tas (i :: p) (S d) (types ++ types_of ec)%list (a :: ids) ec (Some s)) _ _ _ _
             (fun k a ec s t => IH f' ltac:(lia) _ _ _ _ _ _ t) EL). reflexivity.
Qed.

Theorem fuel_irrelevant f f' w tas types start r :
  f <= f' -> resolve_valid f w tas types start = Done r -> resolve_valid f' w tas types start = Done r.
Proof.
  intros L. unfold resolve_valid, resolve_chains, resolve_tree.
  destruct (String.eqb start ""); auto. destruct (w_config w [] start) as [s|]; auto.
  destruct (st_metadata s) as [m|]; auto.
  destruct (resolve f _ _ _ _ _ _ _ _) as [t|] eqn:ER; [|discriminate].
  now rewrite (resolve_mono f f' w tas L _ _ _ _ _ _ _ ER).
Qed.

(** ** Independence of the authorities *)
Lemma only_config i w p a ec :
  w_config (only i w) p a = Some ec -> w_config w p a = Some ec.
Proof. cbn. destruct p; auto. destruct (Nat.eqb _ _); [auto|discriminate]. Qed.

Lemma hint_step_only i w p e d types ids a r :
  hint_step (only i w) p e d types ids a = Some r -> hint_step w p e d types ids a = Some r.
Proof.
  unfold hint_step. destruct (mem a ids); auto.
  destruct (w_config (only i w) p a) as [ec|] eqn:E; [|discriminate].
  rewrite (only_config _ _ _ _ _ E). auto.
Qed.

Lemma hints_loop_weaker step step' rec rec' i hs x :
  (forall k a r, step' k a = Some r -> step k a = Some r) ->
  (forall k a ec s, rec k a ec s <> None -> rec' k a ec s <> None) ->
  hints_loop step rec i hs x <> None -> hints_loop step' rec' i hs x <> None.
Proof.
  intros HS HR. revert i x. induction hs as [|a hs IH]; intros i x; cbn [hints_loop]; auto.
  assert (Q : hints_loop step rec (S i) hs x <> None \/ (exists x', hints_loop step rec (S i) hs x' <> None) ->
              forall y, hints_loop step' rec' (S i) hs y <> None).
  { clear -IH HS HR. intros Q y. apply IH.
    assert (K : forall x x' i hs, hints_loop step rec i hs x <> None -> hints_loop step rec i hs x' <> None).
    { clear. intros x x' i hs. revert i x x'. induction hs as [|a hs IH]; intros i x x'; cbn [hints_loop]; [discriminate|].
      destruct (step i a) as [[ec s]|].
      - destruct (rec i a ec s); [|auto].
        intros H. match goal with |- context [hints_loop step rec (S i) hs ?y] => set (y0 := y) end.
        match type of H with context [hints_loop step rec (S i) hs ?z] => set (z0 := z) in H end.
        destruct (hints_loop step rec (S i) hs z0) as [[? ?]|] eqn:E; [|congruence].
        assert (N : hints_loop step rec (S i) hs z0 <> None) by congruence.
        apply (IH _ _ y0) in N. destruct (hints_loop step rec (S i) hs y0) as [[? ?]|]; congruence.
      - intros H. destruct (hints_loop step rec (S i) hs x) as [[? ?]|] eqn:E; [|congruence].
        assert (N : hints_loop step rec (S i) hs x <> None) by congruence.
        apply (IH _ _ x') in N. destruct (hints_loop step rec (S i) hs x') as [[? ?]|]; congruence. }
    destruct Q as [Q|[x' Q]]; eapply K; eauto. }
  intros H. destruct (step' i a) as [[ec s]|] eqn:E'.
  - rewrite (HS _ _ _ E') in H. destruct (rec i a ec s) as [t|] eqn:ER; [|congruence].
    assert (N : rec' i a ec s <> None) by (apply HR; congruence).
    destruct (rec' i a ec s); [|congruence].
    match goal with |- context [hints_loop step' rec' (S i) hs ?y] => specialize (Q) end.
    assert (N2 : forall y, hints_loop step' rec' (S i) hs y <> None).
    { apply Q. right. eexists. intros K. rewrite K in H. congruence. }
    match goal with |- context [hints_loop step' rec' (S i) hs ?y] => specialize (N2 y); destruct (hints_loop step' rec' (S i) hs y) as [[? ?]|] end; congruence.
  - assert (N2 : forall y, hints_loop step' rec' (S i) hs y <> None).
    { apply Q. destruct (step i a) as [[ec s]|].
      - destruct (rec i a ec s); [|congruence]. right. eexists. intros K. rewrite K in H. congruence.
      - left. intros K. rewrite K in H. congruence. }
    specialize (N2 x). destruct (hints_loop step' rec' (S i) hs x) as [[? ?]|]; congruence.
Qed.

Lemma resolve_only i f w tas : forall p d types ids e sub,
  resolve f w tas p d types ids e sub <> None -> resolve f (only i w) tas p d types ids e sub <> None.
Proof.
  induction f as [|f IH]; intros p d types ids e sub; [auto|].
  cbn [resolve]. destruct (mem _ _); auto. destruct (st_hints e) as [|h hs]; auto.
  intros H.
  match goal with |- context [hints_loop ?s ?r 0 (h :: hs) ?x] =>
    assert (N : hints_loop s r 0 (h :: hs) x <> None) end.
  { eapply hints_loop_weaker.
    - intros k a r Hr. eapply hint_step_only. exact Hr.
    - intros k a ec s Hr. apply IH. exact Hr.
    - intros K. rewrite K in H. congruence. }
  match goal with |- context [hints_loop ?s ?r 0 (h :: hs) ?x] => destruct (hints_loop s r 0 (h :: hs) x) as [[? ?]|] end; congruence.
Qed.

Lemma resolve_chains_only i f w tas types start cs :
  resolve_chains f w tas types start = Done (Ok cs) ->
  exists cs', resolve_chains f (only i w) tas types start = Done (Ok cs').
Proof.
  intros H. apply resolve_chains_no_panic.
  - cbn. intros NS s E K. unfold resolve_chains, resolve_tree in H.
    apply String.eqb_neq in NS. rewrite NS, E, K in H. discriminate.
  - intros K. unfold resolve_chains, resolve_tree in H, K.
    destruct (String.eqb start ""); [discriminate|]. cbn [only w_config] in K.
    destruct (w_config w [] start) as [s|]; [|discriminate].
    destruct (st_metadata s) as [m|]; [|discriminate].
    destruct (resolve f w _ _ _ _ _ _ _) as [t|] eqn:ER; [|discriminate].
    destruct (resolve f (only i w) _ _ _ _ _ _ _) as [t'|] eqn:ER'; [discriminate|].
    revert ER'. apply resolve_only. congruence.
Qed.

Lemma last_cons_app {A} (p q : list A) (i d : A) : last (p ++ q ++ [i])%list d = i.
Proof. rewrite app_assoc. apply last_last. Qed.

Lemma path_only i w tas p e below hs :
  (exists q, p = q ++ [i])%list ->
  path_up w tas p e below hs <-> path_up (only i w) tas p e below hs.
Proof.
  intros (q & Eq). split; intros P; revert q Eq; induction P; intros q Eq; try now constructor.
  - constructor; auto.
    + cbn [only w_config]. replace (last (i0 :: p) 0) with i; [now rewrite Nat.eqb_refl|].
      rewrite Eq. symmetry. apply (last_last (i0 :: q)).
    + intros c Hc. destruct (H10 c Hc) as [C1 C2 C3 C4]. constructor; auto.
    + apply (IHP (i0 :: q)). now rewrite Eq.
  - constructor; auto.
    + eapply only_config; eauto.
    + intros c Hc. destruct (H10 c Hc) as [C1 C2 C3 C4]. constructor; auto.
    + apply (IHP (i0 :: q)). now rewrite Eq.
Qed.

Lemma signed_only i w tas e sub hs : signed_up w tas e sub hs <-> signed_up (only i w) tas e sub hs.
Proof. split; induction 1; econstructor; eauto. Qed.

Lemma path_only_root i w tas e ec s hs :
  path_up w tas [] e [] (Hop i ec s :: hs) <-> path_up (only i w) tas [] e [] (Hop i ec s :: hs).
Proof.
  split; intros P; inversion P; subst; constructor; auto.
  - cbn [only w_config last]. now rewrite Nat.eqb_refl.
  - intros c Hc. match goal with H : forall c, _ -> constraints_met _ _ _ |- _ => destruct (H c Hc) as [C1 C2 C3 C4] end.
    constructor; auto.
  - apply path_only; auto. now exists [].
  - eapply only_config; eauto.
  - intros c Hc. match goal with H : forall c, _ -> constraints_met _ _ _ |- _ => destruct (H c Hc) as [C1 C2 C3 C4] end.
    constructor; auto.
  - match goal with H : path_up (only i w) _ _ _ _ _ |- _ => apply path_only in H; auto end. now exists [].
Qed.

Theorem authorities_independent fuel w tas types start cs :
  resolve_chains fuel w tas types start = Done (Ok cs) ->
  forall c, List.length c <> 1 ->
    In c cs <-> exists i cs', resolve_chains fuel (only i w) tas types start = Done (Ok cs') /\ In c cs'.
Proof.
  intros H c N. rewrite (resolve_chains_spec _ _ _ _ _ _ H c). split.
  - intros (e & SC & [[-> _]|(h & hs & P & Sg & ->)]); [now elim N|].
    destruct h as [i ec s]. destruct (resolve_chains_only i _ _ _ _ _ _ H) as (cs' & H').
    exists i, cs'. split; auto. apply (resolve_chains_spec _ _ _ _ _ _ H'). exists e. split; [exact SC|].
    right. exists (Hop i ec s), hs. split; [now apply (proj1 (path_only_root i w tas e ec s hs))|].
    split; [now apply (proj1 (signed_only i w tas e None _))|reflexivity].
  - intros (i & cs' & H' & Hc). apply (resolve_chains_spec _ _ _ _ _ _ H') in Hc.
    destruct Hc as (e & SC & [[-> _]|(h & hs & P & Sg & ->)]); [now elim N|].
    exists e. split; [exact SC|]. right. exists h, hs. split; [|split; [|reflexivity]].
    + destruct h as [j ec s]. assert (j = i).
      { inversion P; subst. match goal with H : w_config (only i w) _ _ = Some _ |- _ => cbn in H end.
        destruct (Nat.eqb_spec j i); congruence. }
      subst j. now apply (proj2 (path_only_root i w tas e ec s hs)).
    + now apply (proj2 (signed_only i w tas e None _)).
Qed.

(** ** Panics *)
Lemma valid_filter_panic cs :
  valid_metadata_filter cs = Panic <-> exists c, In c cs /\ chain_metadata c = Panic.
Proof.
  induction cs as [|c cs IH]; cbn [valid_metadata_filter].
  - split; [discriminate|now intros (? & [] & _)].
  - destruct (chain_metadata c) eqn:E.
    + split.
      * intros H. destruct (valid_metadata_filter cs); try discriminate.
        destruct (proj1 IH eq_refl) as (c' & ? & ?). exists c'. simpl; auto.
      * intros (c' & [<-|Hin] & K); [congruence|]. rewrite (proj2 IH); eauto.
    + rewrite IH. split; intros (c' & Hc & K); exists c'; simpl; split; auto. destruct Hc as [<-|]; [congruence|auto].
    + split; auto. intros _. exists c. simpl; auto.
Qed.

Lemma valid_filter_not_err cs : valid_metadata_filter cs <> Err.
Proof.
  induction cs as [|c cs IH]; cbn [valid_metadata_filter]; [discriminate|].
  destruct (chain_metadata c); try discriminate; auto.
  destruct (valid_metadata_filter cs); cbn; try discriminate. contradiction.
Qed.

(** When the resolution panics: only for a starting entity without metadata, or when
    evaluating the metadata of one of the chains does. *)
Theorem resolve_panics fuel w tas types start :
  resolve_valid fuel w tas types start = Done Panic <->
  (start <> "" /\ exists s, w_config w [] start = Some s /\ st_metadata s = None) \/
  (exists cs c, resolve_chains fuel w tas types start = Done (Ok cs) /\ In c cs /\ chain_metadata c = Panic).
Proof.
  unfold resolve_valid. split.
  - destruct (resolve_chains fuel w tas types start) as [[cs| |]|] eqn:E; try discriminate; cbn [bind].
    + intros [= H]. apply valid_filter_panic in H. destruct H as (c & ? & ?). right. exists cs, c. auto.
    + intros _. left. destruct (String.eqb_spec start "") as [->|NS].
      { unfold resolve_chains, resolve_tree in E. cbn in E. discriminate. }
      split; auto. destruct (w_config w [] start) as [s|] eqn:EC.
      2: { unfold resolve_chains, resolve_tree in E. apply String.eqb_neq in NS. rewrite NS, EC in E. discriminate. }
      exists s. split; auto. destruct (st_metadata s) as [m|] eqn:EM; auto. exfalso.
      destruct (resolve_chains_no_panic fuel w tas types start) as (cs & K).
      * intros _ s' Es. rewrite EC in Es. injection Es as <-. congruence.
      * rewrite E. discriminate.
      * congruence.
  - intros [(NS & s & EC & EM)|(cs & c & -> & Hc & K)].
    + unfold resolve_chains, resolve_tree. apply String.eqb_neq in NS. rewrite NS, EC, EM. reflexivity.
    + cbn [bind]. f_equal. apply valid_filter_panic. eauto.
Qed.

Theorem resolve_never_error fuel w tas types start : resolve_valid fuel w tas types start <> Done Err.
Proof.
  unfold resolve_valid. destruct (resolve_chains fuel w tas types start) as [[cs| |]|] eqn:E; try discriminate.
  - cbn. intros [= K]. now apply valid_filter_not_err in K.
  - exfalso. unfold resolve_chains, resolve_tree in E.
    destruct (String.eqb start ""); [discriminate|]. destruct (w_config w [] start); [|discriminate].
    destruct (st_metadata s) as [m|]; [|discriminate].
    destruct (resolve _ _ _ _ _ _ _ _ _) as [t|] eqn:ER; [|discriminate]. apply resolve_root in ER.
    2: { intros t'. cbn [flat_map]. now rewrite types_of_with, app_nil_r. }
    destruct ER as (b & t' & EV & _). cbn [bind] in E. rewrite EV in E. discriminate.
Qed.

Lemma resolve_valid_ok fuel w tas types start cs :
  resolve_valid fuel w tas types start = Done (Ok cs) ->
  exists cs0, resolve_chains fuel w tas types start = Done (Ok cs0) /\
    forall c, In c cs <-> In c cs0 /\ is_ok (chain_metadata c) = true.
Proof.
  unfold resolve_valid. destruct (resolve_chains fuel w tas types start) as [[cs0| |]|]; try discriminate.
  cbn [bind]. intros [= H]. exists cs0. split; auto. intros c. now apply valid_filter_in.
Qed.

Lemma valid_filter_ok_iff cs : (exists cs', valid_metadata_filter cs = Ok cs') <-> forall c, In c cs -> chain_metadata c <> Panic.
Proof.
  split.
  - intros (cs' & E) c Hc K. rewrite (proj2 (valid_filter_panic cs)) in E; [discriminate|eauto].
  - intros H. destruct (valid_metadata_filter cs) as [cs'| |] eqn:E; [eauto| |].
    + now apply valid_filter_not_err in E.
    + apply valid_filter_panic in E. destruct E as (c & Hc & K). now elim (H c Hc).
Qed.

Lemma only_one i fuel w tas types start cs cs' c :
  resolve_chains fuel w tas types start = Done (Ok cs) ->
  resolve_chains fuel (only i w) tas types start = Done (Ok cs') ->
  List.length c = 1 -> In c cs <-> In c cs'.
Proof.
  intros H H' L. rewrite (resolve_chains_spec _ _ _ _ _ _ H c), (resolve_chains_spec _ _ _ _ _ _ H' c).
  assert (K : forall e w', root_chain w' tas e c <-> c = [e] /\ (In (st_iss e) (anchor_ids tas) \/ st_hints e = [])).
  { intros e w'. split; [|now left]. intros [R|(h & hs & _ & _ & ->)]; auto.
    exfalso. unfold chain_along in L. cbn [map] in L. simpl in L. rewrite app_length in L. simpl in L. lia. }
  split; intros (e & SC & R); exists e; (split; [exact SC|]); apply K; now apply K in R.
Qed.

Theorem authorities_independent_valid fuel w tas types start cs :
  resolve_valid fuel w tas types start = Done (Ok cs) ->
  forall c, List.length c <> 1 ->
    In c cs <-> exists i cs', resolve_valid fuel (only i w) tas types start = Done (Ok cs') /\ In c cs'.
Proof.
  intros H c N. pose proof H as HV. apply resolve_valid_ok in H. destruct H as (cs0 & H & HC).
  rewrite HC, (authorities_independent _ _ _ _ _ _ H c N). split.
  - intros ((i & cs' & H' & Hc) & M).
    assert (NP : forall d, In d cs' -> chain_metadata d <> Panic).
    { intros d Hd. assert (In d cs0).
      { destruct (Nat.eq_dec (List.length d) 1) as [L|L].
        - now apply (only_one i _ _ _ _ _ _ _ d H H' L).
        - apply (authorities_independent _ _ _ _ _ _ H d L). eauto. }
      unfold resolve_valid in HV. rewrite H in HV. cbn [bind] in HV. injection HV as HV.
      apply (proj1 (valid_filter_ok_iff cs0)); eauto. }
    apply valid_filter_ok_iff in NP. destruct NP as (cs'' & E).
    exists i, cs''. unfold resolve_valid. rewrite H'. cbn [bind]. rewrite E. split; auto.
    apply (valid_filter_in _ _ c E). auto.
  - intros (i & cs' & H' & Hc). apply resolve_valid_ok in H'. destruct H' as (cs0' & H' & HC').
    apply HC' in Hc. destruct Hc as [Hc M]. split; auto. exists i, cs0'. auto.
Qed.

(** ** The expiration time recorded in the tree (used as cache lifetime) *)
Lemma hints_loop_exp step rec i hs x ts x' :
  (forall k a ec s, step k a = Some (ec, s) -> (zero_time <= st_exp s)%Z) -> (x <= zero_time)%Z ->
  hints_loop step rec i hs x = Some (ts, x') -> x' = x.
Proof.
  intros HS. revert i x ts x'. induction hs as [|a hs IH]; intros i x ts x' Hx; cbn [hints_loop].
  - now intros [= _ <-].
  - destruct (step i a) as [[ec s]|] eqn:E.
    + destruct (rec i a ec s); [|discriminate].
      assert (K : (if before (st_exp s) x then st_exp s else x) = x).
      { unfold before. destruct (Z.ltb_spec (st_exp s) x); auto. apply HS in E. lia. }
      rewrite K. destruct (hints_loop step rec (S i) hs x) as [[ts' x'']|] eqn:EL; [|discriminate].
      intros [= _ <-]. eauto.
    + destruct (hints_loop step rec (S i) hs x) as [[ts' x'']|] eqn:EL; [|discriminate].
      intros [= _ <-]. eauto.
Qed.

Lemma hint_step_fetch w p e d types ids a ec s :
  hint_step w p e d types ids a = Some (ec, s) -> w_fetch w p (fetch_endpoint ec) (st_iss e) a = Some s.
Proof.
  unfold hint_step. destruct (mem a ids); [discriminate|].
  destruct (w_config w p a) as [ec'|]; [|discriminate].
  destruct (_ || _); [discriminate|]. destruct (String.eqb _ ""); [discriminate|].
  destruct (w_fetch _ _ _ _ _) eqn:EF; [|discriminate]. destruct (_ || _); [discriminate|].
  destruct (negb _); [discriminate|]. intros [= <- <-]. auto.
Qed.

Theorem tree_exp_zero fuel w tas types start t :
  (forall s, w_config w [] start = Some s -> (zero_time <= st_exp s)%Z) ->
  (forall p ep sub iss s, w_fetch w p ep sub iss = Some s -> (zero_time <= st_exp s)%Z) ->
  resolve_tree fuel w tas types start = Done (Ok t) -> t_exp t = zero_time.
Proof.
  intros H1 H2. unfold resolve_tree. destruct (String.eqb start ""); [now intros [= <-]|].
  destruct (w_config w [] start) as [s|]; [|now intros [= <-]]. specialize (H1 s eq_refl).
  destruct (st_metadata s) as [m|]; [|discriminate].
  destruct (resolve fuel _ _ _ _ _ _ _ _) as [t'|] eqn:ER; [|discriminate]. intros [= <-].
  destruct fuel as [|f]; [discriminate|]. cbn [resolve] in ER.
  set (e := with_metadata s _) in *.
  assert (B : before (st_exp e) zero_time = false) by (apply Z.ltb_ge; exact H1).
  rewrite B in ER. destruct (mem _ _); [now injection ER as <-|].
  destruct (st_hints e) as [|h hs]; [now injection ER as <-|].
  destruct (hints_loop _ _ 0 (h :: hs) zero_time) as [[ts x']|] eqn:EL; [|discriminate].
  injection ER as <-. cbn [t_exp]. eapply hints_loop_exp; [| |exact EL]; [|lia].
  intros k a ec s' Hs. eapply H2. eapply hint_step_fetch. exact Hs.
Qed.
