(** Facts about the requests a resolution makes. *)
From Verif Require Import Base BaseFacts GoVal Policy Schema Metadata Chain Resolver SpecResolver ResolverFacts ResolverLaws Requests SpecRequests.
From Verif Require CritFacts.
From Coq Require Import Lia.
Local Open Scope string_scope.

(** ** Which requests are made *)

Lemma hints_requests_in own step rec i hs r :
  In r (hints_requests own step rec i hs) <->
  exists k a, nth_error hs k = Some a /\
    (In r (own (i + k) a) \/ exists ec s, step (i + k) a = Some (ec, s) /\ In r (rec (i + k) a ec s)).
Proof.
  revert i. induction hs as [|h hs IH]; intros i; cbn [hints_requests].
  - split; [intros []|]. intros ([|k] & a & E & _); discriminate.
  - rewrite !in_app_iff, IH. split.
    + intros [H|[H|(k & a & E & H)]].
      * exists 0, h. rewrite Nat.add_0_r. auto.
      * exists 0, h. rewrite Nat.add_0_r. split; auto. right.
        destruct (step i h) as [[ec s]|]; [eauto|destruct H].
      * exists (S k), a. replace (i + S k) with (S i + k) by lia. auto.
    + intros ([|k] & a & E & H); cbn [nth_error] in E.
      * injection E as ->. rewrite Nat.add_0_r in H. destruct H as [H|(ec & s & Es & H)]; auto.
        right. left. now rewrite Es.
      * right. right. exists k, a. replace (S i + k) with (i + S k) by lia. auto.
Qed.

Lemma hint_requests_in w p e l a r :
  In r (hint_requests w p e (map st_sub l) a) <->
  (forall x, In x l -> st_sub x <> a) /\
  (r = ForConfig p a \/ exists ec, usable_config w p a ec /\ r = ForStatement p (fetch_endpoint ec) (st_iss e) a).
Proof.
  unfold hint_requests, usable_config. destruct (mem a (map st_sub l)) eqn:EM.
  { split; [intros []|]. intros [L _]. apply mem_In in EM. apply in_map_iff in EM.
    destruct EM as (x & Ex & Hx). exfalso. exact (L x Hx Ex). }
  apply mem_nIn in EM.
  assert (L : forall x, In x l -> st_sub x <> a).
  { intros x Hx <-. apply EM. now apply in_map. }
  cbn [In]. split.
  - intros [<-|H]; [auto|]. split; auto. right.
    destruct (w_config w p a) as [ec|]; [|destruct H]. exists ec.
    destruct (String.eqb_spec (st_iss ec) (st_sub ec)) as [E1|]; [|destruct H].
    destruct (String.eqb_spec (st_iss ec) a) as [E2|]; [|destruct H].
    destruct (time_valid (w_now w p false) ec) eqn:ET; [|destruct H]. cbn [negb andb orb] in H.
    destruct (String.eqb_spec (fetch_endpoint ec) ""); [destruct H|]. destruct H as [<-|[]].
    apply valid_at_spec in ET. repeat (split; [now auto|congruence || idtac]). all: try congruence; auto.
    repeat split; auto; try congruence; apply ET.
  - intros [_ [->|(ec & (EC & E1 & E2 & T & F) & ->)]]; [auto|]. right.
    rewrite EC, E1, E2, String.eqb_refl. apply valid_at_spec in T. rewrite T. cbn [negb andb orb].
    apply String.eqb_neq in F. rewrite F. now left.
Qed.

(** One step up the tree, from node to node. *)
Definition node := (list nat * stmt * list stmt)%type.
Definition goes_up (w : world) (tas : list anchor) (n n' : node) : Prop :=
  let '(p, e, below) := n in
  exists i a ec s, to_ask tas e below i a /\ usable_config w (i :: p) a ec /\ usable_statement w (i :: p) e below ec s /\
    n' = (i :: p, ec, e :: below).

Inductive climbs (w : world) (tas : list anchor) (n : node) : node -> Prop :=
| cl_here : climbs w tas n n
| cl_up m m' : climbs w tas n m -> goes_up w tas m m' -> climbs w tas n m'.

Lemma climbs_first w tas n m : climbs w tas n m <-> n = m \/ exists n', goes_up w tas n n' /\ climbs w tas n' m.
Proof.
  split.
  - induction 1 as [|m m' H IH G]; [auto|]. right. destruct IH as [->|(n' & G' & C)].
    + exists m'. split; [auto|constructor].
    + exists n'. split; [auto|]. econstructor; eauto.
  - intros [->|(n' & G & C)]; [constructor|]. induction C as [|m m' C IH G']; econstructor; eauto. constructor.
Qed.

Definition asked_at (w : world) (tas : list anchor) (n : node) (r : request) : Prop :=
  let '(p, e, below) := n in
  exists i a, to_ask tas e below i a /\
    (r = ForConfig (i :: p) a \/
     exists ec, usable_config w (i :: p) a ec /\ r = ForStatement (i :: p) (fetch_endpoint ec) (st_iss e) a).

Lemma hop_up w p e below a ec s :
  hop_ok w p e below a ec s <->
  (forall x, In x (e :: below) -> st_sub x <> a) /\ usable_config w p a ec /\ usable_statement w p e below ec s.
Proof.
  unfold hop_ok, usable_config, usable_statement. split.
  - intros (<- & H). decompose [and] H. auto 20.
  - intros (L & (EC & <- & E2 & T & F) & H). decompose [and] H. auto 20.
Qed.

Lemma same_types_above types e below ec :
  same_types types (e :: below) -> same_types (types ++ types_of ec)%list (ec :: e :: below).
Proof.
  intros ST t. cbn [flat_map]. specialize (ST t). cbn [flat_map] in ST. rewrite !in_app_iff in *. tauto.
Qed.

Lemma tree_requests_sound fuel w tas : forall p e below types r,
  same_types types (e :: below) ->
  In r (tree_requests fuel w tas p (List.length below) types (map st_sub (e :: below)) e) ->
  exists n, climbs w tas (p, e, below) n /\ asked_at w tas n r.
Proof.
  induction fuel as [|f IH]; intros p e below types r ST; cbn [tree_requests]; [intros []|].
  destruct (mem (st_iss e) (anchor_ids tas)) eqn:EA; [intros []|]. apply mem_nIn in EA.
  rewrite hints_requests_in. intros (i & a & Ea & [H|(ec & s & Es & H)]); cbn [Nat.add] in *.
  - apply hint_requests_in in H. destruct H as [L H]. exists (p, e, below). split; [constructor|].
    exists i, a. split; [split; auto|auto].
  - apply hint_step_spec in Es; auto. apply hop_up in Es. destruct Es as (L & UC & US).
    assert (Sub : st_sub ec = a) by apply UC.
    replace (a :: map st_sub (e :: below)) with (map st_sub (ec :: e :: below)) in H by (cbn; congruence).
    apply (IH (i :: p) ec (e :: below)) in H; [|now apply same_types_above].
    destruct H as (n & C & A). exists n. split; auto. apply climbs_first. right.
    exists (i :: p, ec, e :: below). split; auto. exists i, a, ec, s. split; [split; auto|auto].
Qed.

Lemma tree_requests_complete fuel w tas : forall p e below types sub t r n,
  same_types types (e :: below) ->
  resolve fuel w tas p (List.length below) types (map st_sub (e :: below)) e sub = Some t ->
  climbs w tas (p, e, below) n -> asked_at w tas n r ->
  In r (tree_requests fuel w tas p (List.length below) types (map st_sub (e :: below)) e).
Proof.
  induction fuel as [|f IH]; intros p e below types sub t r n ST HR C A; [discriminate|].
  cbn [tree_requests]. cbn [resolve] in HR.
  assert (NA : ~ In (st_iss e) (anchor_ids tas)).
  { apply climbs_first in C. destruct C as [<-|(n' & G & _)].
    - destruct A as (i & a & T & _). apply T.
    - destruct G as (i & a & ec & s & T & _). apply T. }
  apply mem_nIn in NA. rewrite NA in *. apply hints_requests_in.
  apply climbs_first in C. destruct C as [<-|(n' & G & C)].
  - destruct A as (i & a & (_ & Ea & L) & A). exists i, a. split; auto. left. cbn [Nat.add].
    apply hint_requests_in. auto.
  - destruct G as (i & a & ec & s & (_ & Ea & L) & UC & US & ->). exists i, a. split; auto. right. cbn [Nat.add].
    exists ec, s. assert (Hs : hint_step w (i :: p) e (List.length below) types (map st_sub (e :: below)) a = Some (ec, s)).
    { apply hint_step_spec; auto. apply hop_up. auto. }
    split; auto. assert (Sub : st_sub ec = a) by apply UC.
    replace (a :: map st_sub (e :: below)) with (map st_sub (ec :: e :: below)) by (cbn; congruence).
    destruct (st_hints e) as [|h0 hs0] eqn:EH; [destruct i; discriminate|]. rewrite <- EH in *.
    destruct (hints_loop _ _ _ _ _) as [[ts x']|] eqn:EL; [|discriminate].
    pose proof (hints_loop_spec _ _ _ _ _ _ _ EL) as [Len K].
    destruct (nth_error ts i) as [ti|] eqn:Et.
    2: { apply nth_error_None in Et. assert (i < List.length (st_hints e)) by (apply nth_error_Some; congruence). lia. }
    destruct (K i a ti Ea Et) as [[N _]|(ec' & s' & Es' & Er)]; cbn [Nat.add] in *; [congruence|].
    rewrite Hs in Es'. injection Es' as <- <-.
    replace (a :: map st_sub (e :: below)) with (map st_sub (ec :: e :: below)) in Er by (cbn; congruence).
    eapply (IH (i :: p) ec (e :: below)); eauto. now apply same_types_above.
Qed.

Lemma reached_climbs w tas types start p e below :
  reached w tas types start p e below <-> exists e0, start_config w types start e0 /\ climbs w tas ([], e0, []) (p, e, below).
Proof.
  split.
  - induction 1 as [e S|p e below i a ec s R (e0 & S & C) T UC US].
    + exists e. split; [auto|constructor].
    + exists e0. split; auto. econstructor; eauto. exists i, a, ec, s. auto.
  - intros (e0 & S & C). remember (p, e, below) as n eqn:En. revert p e below En.
    induction C as [|m m' C IH G]; intros p e below En.
    + injection En as <- <- <-. now constructor.
    + destruct m as [[p0 e1] b0]. destruct G as (i & a & ec & s & T & UC & US & ->). injection En as <- <- <-.
      econstructor; eauto.
Qed.

Lemma called_for_cases w tas types start r :
  called_for w tas types start r <->
  (start <> "" /\ r = ForConfig [] start) \/
  exists e0 n, start_config w types start e0 /\ climbs w tas ([], e0, []) n /\ asked_at w tas n r.
Proof.
  split.
  - intros [N|p e below i a R T|p e below i a ec R T UC]; [auto| |]; right; apply reached_climbs in R;
      destruct R as (e0 & S & C); exists e0, (p, e, below); repeat (split; [assumption|]); exists i, a; split; eauto.
  - intros [[N ->]|(e0 & [[p e] below] & S & C & i & a & T & [->|(ec & UC & ->)])]; [now constructor| |];
      assert (R : reached w tas types start p e below) by (apply reached_climbs; eauto); econstructor; eauto.
Qed.

Theorem requests_exact fuel w tas types start t r :
  resolve_tree fuel w tas types start = Done (Ok t) ->
  In r (resolve_requests fuel w tas types start) <-> called_for w tas types start r.
Proof.
  unfold resolve_tree, resolve_requests. rewrite called_for_cases. intros H.
  destruct (String.eqb_spec start "") as [->|NS].
  { split; [intros []|]. intros [[N _]|(e0 & n & (N & _) & _)]; contradiction. }
  cbn [In]. destruct (w_config w [] start) as [s|] eqn:EC.
  2: { split; [intros [<-|[]]; auto|]. intros [[_ ->]|(e0 & n & (_ & s & m & E & _) & _)]; [auto|congruence]. }
  destruct (st_metadata s) as [m|] eqn:EMd; [|discriminate].
  set (m' := match types with [] => m | _ => nil_all_except m types end) in *.
  set (e := with_metadata s (Some m')) in *.
  destruct (resolve fuel w tas [] 0 (guess_entity_types m') [st_sub e] e None) as [t0|] eqn:ER; [|discriminate].
  assert (SC : start_config w types start e) by (split; auto; exists s, m; auto).
  assert (ST : same_types (guess_entity_types m') [e]).
  { intros t'. cbn [flat_map]. unfold e. now rewrite types_of_with, app_nil_r. }
  split.
  - intros [<-|H']; [auto|]. right. exists e.
    destruct (tree_requests_sound fuel w tas [] e [] _ r ST H') as (n & C & A). eauto.
  - intros [[_ ->]|(e0 & n & (_ & s' & m0 & E & E' & ->) & C & A)]; [auto|]. right.
    rewrite EC in E. injection E as <-. rewrite EMd in E'. injection E' as <-.
    exact (tree_requests_complete fuel w tas [] e [] _ None t0 r n ST ER C A).
Qed.

(** Also when the resolution does not come to an end. *)
Theorem requests_sound fuel w tas types start r :
  In r (resolve_requests fuel w tas types start) -> called_for w tas types start r.
Proof.
  unfold resolve_requests. rewrite called_for_cases.
  destruct (String.eqb_spec start "") as [->|NS]; [intros []|]. cbn [In]. intros [<-|H]; [auto|]. right.
  destruct (w_config w [] start) as [s|] eqn:EC; [|destruct H].
  destruct (st_metadata s) as [m|] eqn:EMd; [|destruct H].
  set (m' := match types with [] => m | _ => nil_all_except m types end) in *.
  set (e := with_metadata s (Some m')) in *. exists e.
  destruct (tree_requests_sound fuel w tas [] e [] (guess_entity_types m') r) as (n & C & A); auto.
  { intros t'. cbn [flat_map]. unfold e. now rewrite types_of_with, app_nil_r. }
  exists n. split; auto. split; auto. exists s, m. auto.
Qed.

(** ** The answers determine the result *)

Lemma match_naming_host w w' c id : w_host w' id = w_host w id -> match_naming w' c id = match_naming w c id.
Proof. unfold match_naming. now intros ->. Qed.

Lemma check_constraints_host w w' d types ids co : (forall id, w_host w' id = w_host w id) ->
  check_constraints w' d types ids co = check_constraints w d types ids co.
Proof.
  intros H. unfold check_constraints. destruct co as [c|]; auto. f_equal. f_equal.
  destruct (co_naming c) as [n|]; auto. unfold check_naming.
  induction ids as [|id ids IH]; cbn [forallb]; auto. rewrite IH. clear IH. f_equal. f_equal.
  - f_equal. induction (nc_excluded n) as [|x l IHl]; cbn [existsb]; auto. now rewrite IHl, (match_naming_host w w' _ _ (H id)).
  - destruct (nc_permitted n) as [l|]; auto.
    induction l as [|x l IHl]; cbn [existsb]; auto. now rewrite IHl, (match_naming_host w w' _ _ (H id)).
Qed.

Lemma hint_alike w w' p e d types ids a : same_but_served w w' ->
  (forall r, In r (hint_requests w p e ids a) -> answered_alike w w' r) ->
  hint_requests w' p e ids a = hint_requests w p e ids a /\
  hint_step w' p e d types ids a = hint_step w p e d types ids a.
Proof.
  intros (N & _ & HH) A. unfold hint_requests, hint_step in *. destruct (mem a ids); auto.
  pose proof (A _ (or_introl eq_refl)) as AC. cbn [answered_alike] in AC. rewrite AC in *.
  destruct (w_config w p a) as [ec|]; auto. rewrite N in *.
  destruct (negb _ || negb _); auto. destruct (String.eqb (fetch_endpoint ec) ""); auto.
  pose proof (A _ (or_intror (or_introl eq_refl))) as AF. cbn [answered_alike] in AF. rewrite AF.
  split; auto. destruct (w_fetch w _ _ _ _) as [s|]; auto. rewrite N. now rewrite (check_constraints_host w w' _ _ _ _ HH).
Qed.

Lemma hints_alike (own own' : nat -> string -> list request) (step step' : nat -> string -> option (stmt * stmt)) rec rec' rt rt' (P : request -> Prop) i hs x :
  (forall k a, (forall r, In r (own k a) -> P r) -> own' k a = own k a /\ step' k a = step k a) ->
  (forall k a ec s, step k a = Some (ec, s) -> (forall r, In r (rec k a ec s) -> P r) ->
     rec' k a ec s = rec k a ec s /\ rt' k a ec s = rt k a ec s) ->
  (forall r, In r (hints_requests own step rec i hs) -> P r) ->
  hints_requests own' step' rec' i hs = hints_requests own step rec i hs /\
  hints_loop step' rt' i hs x = hints_loop step rt i hs x.
Proof.
  intros HO HR. revert i x. induction hs as [|a hs IH]; intros i x HP; cbn [hints_requests hints_loop] in *; auto.
  destruct (HO i a) as [-> ->]; [intros r Hr; apply HP; apply in_app_iff; auto|].
  destruct (step i a) as [[ec s]|] eqn:E.
  - destruct (HR i a ec s E) as [-> ->]; [intros r Hr; apply HP; rewrite !in_app_iff; auto|].
    assert (HP' : forall r, In r (hints_requests own step rec (S i) hs) -> P r) by (intros r Hr; apply HP; rewrite !in_app_iff; auto).
    split; [now rewrite (proj1 (IH (S i) x HP'))|]. destruct (rt i a ec s); auto. now rewrite (proj2 (IH (S i) _ HP')).
  - assert (HP' : forall r, In r (hints_requests own step rec (S i) hs) -> P r) by (intros r Hr; apply HP; rewrite !in_app_iff; auto).
    split; [now rewrite (proj1 (IH (S i) x HP'))|]. now rewrite (proj2 (IH (S i) _ HP')).
Qed.

Lemma resolve_alike w w' tas : same_but_served w w' -> forall fuel p d types ids e sub,
  (forall r, In r (tree_requests fuel w tas p d types ids e) -> answered_alike w w' r) ->
  tree_requests fuel w' tas p d types ids e = tree_requests fuel w tas p d types ids e /\
  resolve fuel w' tas p d types ids e sub = resolve fuel w tas p d types ids e sub.
Proof.
  intros S. induction fuel as [|f IH]; intros p d types ids e sub A; cbn [tree_requests resolve] in *; auto.
  destruct (mem (st_iss e) (anchor_ids tas)); auto.
  destruct (hints_alike
     (fun i a => hint_requests w (i :: p) e ids a) (fun i a => hint_requests w' (i :: p) e ids a)
     (fun i a => hint_step w (i :: p) e d types ids a) (fun i a => hint_step w' (i :: p) e d types ids a)
     (fun i a ec s => tree_requests f w tas (i :: p) (Datatypes.S d) (types ++ types_of ec)%list (a :: ids) ec)
     (fun i a ec s => tree_requests f w' tas (i :: p) (Datatypes.S d) (types ++ types_of ec)%list (a :: ids) ec)
     (fun i a ec s => resolve f w tas (i :: p) (Datatypes.S d) (types ++ types_of ec)%list (a :: ids) ec (Some s))
     (fun i a ec s => resolve f w' tas (i :: p) (Datatypes.S d) (types ++ types_of ec)%list (a :: ids) ec (Some s))
     (answered_alike w w') 0 (st_hints e) (if before (st_exp e) zero_time then st_exp e else zero_time)) as [H1 H2].
  - intros k a Hk. now apply hint_alike.
  - intros k a ec s _ Hk. now apply IH.
  - exact A.
  - split; [exact H1|]. destruct (st_hints e) as [|h hs]; auto. now rewrite H2.
Qed.

Lemma verify_alike w w' s ks : (forall j l, w_verify w' j l = w_verify w j l) -> verify w' s ks = verify w s ks.
Proof. intros H. unfold verify. destruct ks as [[|k l]|]; auto. Qed.

Lemma keep_alike w w' e sub a : (forall j l, w_verify w' j l = w_verify w j l) ->
  keep_authority w' e sub a = keep_authority w e sub a.
Proof.
  intros H. unfold keep_authority. destruct (t_sub a), e, sub; auto; now rewrite !(verify_alike w w' _ _ H).
Qed.

Lemma verify_sigs_alike w w' tas : (forall j l, w_verify w' j l = w_verify w j l) ->
  forall t, verify_sigs w' tas t = verify_sigs w tas t.
Proof.
  intros H t. induction t as [e sub auth x IH] using CritFacts.tree_ind_in.
  assert (R : verify_rest w' tas (Tree e sub auth x) = verify_rest w tas (Tree e sub auth x)).
  { unfold verify_rest. cbn [t_auth t_entity t_sub t_exp]. destruct auth as [l|]; auto.
    assert (G : verify_auths w' tas e sub l = verify_auths w tas e sub l); [|now rewrite G].
    assert (IH' : forall a, In a l -> verify_sigs w' tas a = verify_sigs w tas a) by (intros; eapply IH; eauto).
    clear IH. induction l as [|a l IHl]; auto. cbn [verify_auths]. rewrite (IH' a (or_introl eq_refl)).
    rewrite (IHl (fun b Hb => IH' b (or_intror Hb))).
    destruct (verify_sigs w tas a) as [[b a']| |]; cbn [bind]; auto. now rewrite (keep_alike w w' e sub a' H). }
  rewrite !verify_sigs_eq, R. cbn [t_sub t_entity]. destruct sub as [s|]; auto. destruct e as [en|]; auto.
  destruct (anchor_keys tas en s) as [ks|]; auto. now rewrite !(verify_alike w w' _ _ H).
Qed.

Theorem answers_suffice fuel w w' tas types start : same_but_served w w' ->
  (forall r, In r (resolve_requests fuel w tas types start) -> answered_alike w w' r) ->
  resolve_requests fuel w' tas types start = resolve_requests fuel w tas types start /\
  resolve_chains fuel w' tas types start = resolve_chains fuel w tas types start /\
  resolve_valid fuel w' tas types start = resolve_valid fuel w tas types start.
Proof.
  intros S A.
  assert (T : resolve_requests fuel w' tas types start = resolve_requests fuel w tas types start /\
              resolve_tree fuel w' tas types start = resolve_tree fuel w tas types start).
  { unfold resolve_requests, resolve_tree in *. destruct (String.eqb start ""); auto.
    pose proof (A _ (or_introl eq_refl)) as AC. cbn [answered_alike] in AC. rewrite AC.
    destruct (w_config w [] start) as [s|]; auto. destruct (st_metadata s) as [m|]; auto.
    match goal with |- context [tree_requests fuel w' tas [] 0 ?ty ?ids ?e] =>
      destruct (resolve_alike w w' tas S fuel [] 0 ty ids e None (fun r Hr => A r (or_intror Hr))) as [-> ->] end. auto. }
  destruct T as [T1 T2]. split; auto.
  assert (C : resolve_chains fuel w' tas types start = resolve_chains fuel w tas types start).
  { unfold resolve_chains. rewrite T2. destruct (resolve_tree fuel w tas types start) as [[t| |]|]; auto.
    cbn [bind]. rewrite (verify_sigs_alike w w'); auto. apply S. }
  split; auto. unfold resolve_valid. now rewrite C.
Qed.

(** ** How many requests are made *)

Lemma hints_requests_length own step rec i hs K :
  (forall k a, In a hs -> List.length (own k a) + match step k a with Some (ec, s) => List.length (rec k a ec s) | None => 0 end <= K) ->
  List.length (hints_requests own step rec i hs) <= List.length hs * K.
Proof.
  revert i. induction hs as [|a hs IH]; intros i H; cbn [hints_requests List.length]; [lia|].
  rewrite !app_length. specialize (IH (S i) (fun k b Hb => H k b (or_intror Hb))).
  specialize (H i a (or_introl eq_refl)).
  destruct (step i a) as [[ec s]|]; cbn [List.length] in *; lia.
Qed.

Lemma hint_requests_length w p e ids a : List.length (hint_requests w p e ids a) <= if mem a ids then 0 else 2.
Proof.
  unfold hint_requests. destruct (mem a ids); auto. cbn [List.length].
  destruct (w_config w p a); cbn [List.length]; [|lia].
  destruct (_ || _); cbn [List.length]; [lia|]. destruct (String.eqb _ _); cbn [List.length]; lia.
Qed.

Lemma tree_requests_length U b w tas : federation_of U b w -> forall fuel p d types ids e,
  incl (st_hints e) U -> List.length (st_hints e) <= b ->
  List.length (tree_requests fuel w tas p d types ids e) <= 2 * (fresh_in U ids * b ^ fresh_in U ids).
Proof.
  intros HF. induction fuel as [|f IH]; intros p d types ids e HU HB; cbn [tree_requests]; [cbn; lia|].
  destruct (mem _ _); [cbn; lia|].
  set (n := fresh_in U ids).
  destruct n as [|n'] eqn:En.
  - (* nobody is left to ask *)
    eapply Nat.le_trans; [apply (hints_requests_length _ _ _ _ _ 0)|lia].
    intros k a Ha. assert (M : mem a ids = true).
    { destruct (mem a ids) eqn:M; auto. pose proof (fresh_less U ids a (HU a Ha) M). unfold n in En. lia. }
    pose proof (hint_requests_length w (k :: p) e ids a) as L. rewrite M in L.
    unfold hint_step. rewrite M. lia.
  - eapply Nat.le_trans; [apply (hints_requests_length _ _ _ _ _ (2 + 2 * (n' * b ^ n')))|].
    + intros k a Ha. pose proof (hint_requests_length w (k :: p) e ids a) as L.
      destruct (mem a ids) eqn:M; [unfold hint_step; rewrite M; lia|].
      destruct (hint_step w (k :: p) e d types ids a) as [[ec s]|] eqn:Es; [|lia].
      apply hint_step_config in Es. destruct Es as [_ Ec]. destruct (HF _ _ _ Ec) as (_ & H1 & H2).
      specialize (IH (k :: p) (S d) (types ++ types_of ec)%list (a :: ids) ec H1 H2).
      pose proof (fresh_less U ids a (HU a Ha) M) as FL.
      assert (Q : fresh_in U (a :: ids) * b ^ fresh_in U (a :: ids) <= n' * b ^ n').
      { assert (LE : fresh_in U (a :: ids) <= n') by (unfold n in En; lia).
        destruct (Nat.eq_dec b 0) as [->|NB]; [|apply Nat.mul_le_mono; auto; apply Nat.pow_le_mono_r; auto].
        destruct (fresh_in U (a :: ids)); [lia|]. rewrite Nat.pow_0_l by lia. lia. }
      lia.
    + cbn [Nat.pow]. set (q := b ^ n').
      assert (Hq : b <= b * q). { destruct (Nat.eq_dec b 0); [subst; lia|]. assert (1 <= q); [|nia].
        unfold q. change 1 with (b ^ 0). apply Nat.pow_le_mono_r; lia. }
      eapply Nat.le_trans; [apply Nat.mul_le_mono_r; exact HB|]. nia.
Qed.

Theorem requests_bounded U b fuel w tas types start : federation_of U b w ->
  List.length (resolve_requests fuel w tas types start) <= 1 + 2 * (List.length U * b ^ List.length U).
Proof.
  intros HF. unfold resolve_requests. destruct (String.eqb start ""); cbn [List.length]; [lia|].
  destruct (w_config w [] start) as [s|] eqn:EC; cbn [List.length]; [|lia].
  destruct (st_metadata s) as [m|]; cbn [List.length]; [|lia].
  apply le_n_S. destruct (HF _ _ _ EC) as (_ & H1 & H2).
  eapply Nat.le_trans; [apply (tree_requests_length U b w tas HF); auto|].
  match goal with |- 2 * (?x * _) <= _ => set (n := x) end.
  assert (LE : n <= List.length U).
  { unfold n, fresh_in. assert (K : forall (f : string -> bool) l, List.length (filter f l) <= List.length l)
      by (intros f l; induction l as [|y l IHl]; cbn; [lia|destruct (f y); cbn; lia]). apply K. }
  apply Nat.mul_le_mono_l. destruct (Nat.eq_dec b 0) as [->|NB].
  - destruct n as [|n']; [lia|]. rewrite Nat.pow_0_l by lia. lia.
  - apply Nat.mul_le_mono; auto. apply Nat.pow_le_mono_r; auto.
Qed.
