(** Resolvers used step by step: what the calls return. *)
From Coq Require Import QArith.
From Verif Require Import Base GoVal Policy Schema Metadata Chain BaseFacts Resolver SpecResolver ResolverFacts TrustMark Refresher FloatTime Cache SpecCache CacheFacts CacheLaws Steps SpecSteps.
Local Open Scope nat_scope.
Local Open Scope string_scope.

(** ** Verification *)

Lemma verify_same w w' s ks : w_verify w = w_verify w' -> verify w s ks = verify w' s ks.
Proof. intros E. unfold verify. destruct ks as [[|k l]|]; auto. now rewrite E. Qed.

Lemma verify_sigs_same w w' tas : w_verify w = w_verify w' -> forall t, verify_sigs w tas t = verify_sigs w' tas t.
Proof.
  intros E. fix IH 1. intros [e sub auth x]. rewrite !verify_sigs_eq. cbn [t_sub t_entity].
  assert (R : verify_rest w tas (Tree e sub auth x) = verify_rest w' tas (Tree e sub auth x)).
  { unfold verify_rest. cbn [t_auth t_entity t_sub t_exp]. destruct auth as [l|]; [|reflexivity].
    assert (A : verify_auths w tas e sub l = verify_auths w' tas e sub l).
    { induction l as [|a l IHl]; [reflexivity|]. cbn [verify_auths]. rewrite (IH a). rewrite IHl.
      destruct (verify_sigs w' tas a) as [[b a']| |]; cbn [bind]; try reflexivity.
      assert (K : (if b then keep_authority w e sub a' else Ok false) = (if b then keep_authority w' e sub a' else Ok false)).
      { destruct b; [|reflexivity]. unfold keep_authority. destruct (t_sub a'); [|reflexivity]. destruct e; [|reflexivity].
        rewrite (verify_same w w') by exact E. destruct sub; [|reflexivity]. now rewrite (verify_same w w') by exact E. }
      now rewrite K. }
    now rewrite A. }
  rewrite R. destruct sub as [s|]; [|reflexivity]. destruct e as [en|]; [|reflexivity].
  destruct (anchor_keys tas en s); [|reflexivity]. now rewrite !(verify_same w w') by exact E.
Qed.

Lemma verify_again w w' tas t t' : t_sub t = None -> verify_sigs w tas t = Ok (false, t') -> verify_sigs w' tas t' = Ok (false, t').
Proof.
  intros S. rewrite !verify_sigs_eq. rewrite S. unfold verify_rest. destruct (t_auth t) as [l|] eqn:A.
  - destruct (verify_auths w tas (t_entity t) (t_sub t) l) as [l'| |]; cbn [bind]; try discriminate.
    destruct l'; [|discriminate]. intros [= <-]. cbn [t_sub t_auth t_entity t_exp]. rewrite S. reflexivity.
  - intros [= <-]. rewrite S, A. reflexivity.
Qed.

Lemma root_node fuel w tas p d types ids e sub t : resolve fuel w tas p d types ids e sub = Some t -> t_entity t = Some e /\ t_sub t = sub.
Proof.
  destruct fuel as [|f]; [discriminate|]. cbn [resolve]. destruct (mem _ _); [intros [= <-]; auto|]. destruct (st_hints e); [intros [= <-]; auto|].
  destruct (hints_loop _ _ _ _ _) as [[ts x]|]; [|discriminate]. intros [= <-]. auto.
Qed.

Lemma resolve_tree_root fuel w tas types start tr : resolve_tree fuel w tas types start = Done (Ok tr) ->
  t_sub tr = None /\ (t_entity tr = None -> tr = zero_tree /\ (start = "" \/ w_config w [] start = None)).
Proof.
  unfold resolve_tree. destruct (String.eqb_spec start "") as [->|]; [intros [= <-]; auto|].
  destruct (w_config w [] start) as [s|]; [|intros [= <-]; auto]. destruct (st_metadata s) as [m|]; [|discriminate].
  destruct (resolve _ _ _ _ _ _ _ _ _) as [t|] eqn:R; [|discriminate]. intros [= <-]. apply root_node in R. destruct R as [-> ->].
  split; [reflexivity|discriminate].
Qed.

(** ** The in-memory cache has no trees and no chains *)
Section Steps.
  Variable hash : string -> list string -> list string -> string.

  Definition treeless (c : cache cached) : Prop :=
    exists l, c = Memory l /\ forall e x, In e l -> en_key e <> cache_key key_trust_tree x /\ en_key e <> cache_key key_trust_tree_chains x.

  Lemma absent (k : string) (l : list (entry cached)) : (forall e, In e l -> en_key e <> k) -> find_entry k l = None.
  Proof.
    intros H. unfold find_entry. induction l as [|e l IH]; [reflexivity|]. cbn [find].
    destruct (String.eqb_spec (en_key e) k) as [E|N]; [elim (H e (or_introl eq_refl) E)|]. apply IH. intros e' I. apply H. now right.
  Qed.

  Lemma no_tree r (l : list (entry cached)) : (forall e x, In e l -> en_key e <> cache_key key_trust_tree x /\ en_key e <> cache_key key_trust_tree_chains x) ->
    find_entry (my_tree_key hash r) l = None /\ find_entry (my_chains_key hash r) l = None.
  Proof. intros H. split; apply absent; intros e I; [exact (proj1 (H e _ I))|exact (proj2 (H e _ I))]. Qed.

  Definition expires (t : tree) : Prop := (t_exp t <= zero_time)%Z.

  Lemma set_nothing r (v : cached) t x (l : list (entry cached)) : (x <= zero_time)%Z -> (zero_time + 2 <= t)%Z ->
    (forall e x, In e l -> en_key e <> cache_key key_trust_tree x /\ en_key e <> cache_key key_trust_tree_chains x) ->
    cache_set t (my_tree_key hash r) v (until x t) (Memory l) = Memory l /\
    cache_set t (my_chains_key hash r) v (until x t) (Memory l) = Memory l.
  Proof.
    intros LE T H. destruct (no_tree r l H) as [A B]. cbn [cache_set]. rewrite !mem_set_negative by (apply until_zero; auto).
    now rewrite !drop_absent by assumption.
  Qed.

  Lemma resolve_memory fuel w t r c x : treeless c -> (forall i, (zero_time + 2 <= t i)%Z) ->
    do_resolve hash fuel w t r c = Done (Ok x) ->
    exists tr, resolve_tree fuel w (rs_tas r) (rs_types r) (rs_start r) = Done (Ok tr) /\
      x = (match t_entity tr with Some _ => with_tree r tr false | None => r end, c).
  Proof.
    intros (l & -> & H) T. destruct (no_tree r l H) as [A B]. unfold do_resolve. cbn [cache_get]. unfold mem_get. rewrite A.
    destruct (resolve_tree _ _ _ _ _) as [[tr| |]|] eqn:R; try discriminate. pose proof (resolve_tree_exp_le _ _ _ _ _ _ R) as LE.
    intros E. exists tr. split; [reflexivity|]. destruct (t_entity tr); [|now injection E as <-].
    rewrite (proj1 (set_nothing r _ (t 2) _ l LE (T 2) H)) in E. now injection E as <-.
  Qed.

  Lemma verify_memory w t r c x : treeless c -> (forall i, (zero_time + 2 <= t i)%Z) -> expires (rs_tree r) ->
    do_verify hash w t r c = Ok x ->
    exists b tr, (if rs_verified r then b = true /\ tr = rs_tree r else verify_sigs w (rs_tas r) (rs_tree r) = Ok (b, tr)) /\
      x = (with_tree r tr b, c).
  Proof.
    intros (l & -> & H) T LE. unfold do_verify. destruct (rs_verified r).
    - cbn [bind]. rewrite (proj1 (set_nothing r _ (t 3) _ l LE (T 3) H)). intros [= <-]. exists true, (rs_tree r). auto.
    - destruct (verify_sigs w (rs_tas r) (rs_tree r)) as [[b tr]| |] eqn:V; cbn [bind]; try discriminate.
      assert (LE' : (t_exp tr <= zero_time)%Z) by (rewrite (verify_sigs_exp _ _ _ _ _ V); exact LE).
      rewrite (proj1 (set_nothing r _ (t 3) _ l LE' (T 3) H)). intros [= <-]. exists b, tr. auto.
  Qed.

  Lemma chains_memory t r c : treeless c -> (forall i, (zero_time + 2 <= t i)%Z) -> expires (rs_tree r) ->
    do_chains hash t r c = (tree_chains (rs_tree r), c).
  Proof.
    intros (l & -> & H) T LE. destruct (no_tree r l H) as [A B]. unfold do_chains. cbn [cache_get]. unfold mem_get. rewrite B.
    destruct (tree_chains (rs_tree r)) as [|c cs]; [reflexivity|]. now rewrite (proj2 (set_nothing r _ (t 5) _ l LE (T 5) H)).
  Qed.

  (** ** What is known about a resolver after a history *)

  (** The tree of [r] comes from a resolution with [f] and [w]; [seen]: it has been verified. *)
  Definition based (v : string -> list string -> bool) (seen : bool) (f : nat) (w : world) (r : resolver) : Prop :=
    w_verify w = v /\ exists tr0, resolve_tree f w (rs_tas r) (rs_types r) (rs_start r) = Done (Ok tr0) /\ t_sub tr0 = None /\
      ((seen = false /\ rs_tree r = tr0 /\ rs_verified r = false) \/ verify_sigs w (rs_tas r) tr0 = Ok (rs_verified r, rs_tree r)).
  Definition blank (r : resolver) : Prop := rs_tree r = zero_tree /\ rs_verified r = false.

  Lemma based_expires v seen f w r : based v seen f w r -> expires (rs_tree r).
  Proof.
    intros (_ & tr0 & R & _ & [(_ & -> & _)|V]); [exact (resolve_tree_exp_le _ _ _ _ _ _ R)|].
    unfold expires. rewrite (verify_sigs_exp _ _ _ _ _ V). exact (resolve_tree_exp_le _ _ _ _ _ _ R).
  Qed.

  Lemma verify_based v seen f w w' r b tr : based v seen f w r -> w_verify w' = v ->
    (if rs_verified r then b = true /\ tr = rs_tree r else verify_sigs w' (rs_tas r) (rs_tree r) = Ok (b, tr)) ->
    based v true f w (with_tree r tr b).
  Proof.
    intros (W & tr0 & R & S & P) W' V. split; [exact W|]. exists tr0. cbn [with_tree rs_tas rs_types rs_start rs_verified rs_tree].
    split; [exact R|]. split; [exact S|]. right. destruct P as [(_ & E & F)|P].
    - rewrite F in V. rewrite E in V. rewrite (verify_sigs_same w w') by congruence. exact V.
    - destruct (rs_verified r) eqn:F; [destruct V as [-> ->]; exact P|].
      rewrite (verify_again w w' _ _ _ S P) in V. injection V as <- <-. exact P.
  Qed.

  Lemma verify_blank w r b tr : blank r ->
    (if rs_verified r then b = true /\ tr = rs_tree r else verify_sigs w (rs_tas r) (rs_tree r) = Ok (b, tr)) -> b = false /\ tr = zero_tree.
  Proof. intros [E F] V. rewrite F, E in V. rewrite verify_zero in V. now injection V as <- <-. Qed.

  Lemma resolved_based v f w r tr o : w_verify w = v -> resolve_tree f w (rs_tas r) (rs_types r) (rs_start r) = Done (Ok tr) -> t_entity tr = Some o ->
    based v false f w (with_tree r tr false).
  Proof.
    intros W R _. split; [exact W|]. exists tr. split; [exact R|]. split; [exact (proj1 (resolve_tree_root _ _ _ _ _ _ R))|]. left. auto.
  Qed.

  Lemma based_weaken v f w r : based v true f w r -> based v false f w r.
  Proof. intros (W & tr0 & R & S & [(E & _)|P]); [discriminate|]. split; [exact W|]. exists tr0. auto. Qed.

  (** [past]: what has been called so far. *)
  Definition known (v : string -> list string -> bool) (o : string * list anchor * list string) (past : list (method * nat * world)) (seen : bool) (r : resolver) : Prop :=
    rs_start r = fst (fst o) /\ rs_tas r = snd (fst o) /\ rs_types r = snd o /\
    ((blank r /\ forall m f w, In (m, f, w) past -> m = MResolve \/ m = MValidChains -> resolve_tree f w (rs_tas r) (rs_types r) (rs_start r) = Done (Ok zero_tree)) \/
     exists m f w, In (m, f, w) past /\ (m = MResolve \/ m = MValidChains) /\ based v seen f w r).

  Lemma known_expires v o past seen r : known v o past seen r -> expires (rs_tree r).
  Proof.
    intros (_ & _ & _ & [[[E _] _]|(m & f & w & _ & _ & B)]); [rewrite E; apply Z.le_refl|now apply based_expires in B].
  Qed.

  Lemma known_more v o past m0 f0 w0 seen r : (m0 = MResolve \/ m0 = MValidChains -> resolve_tree f0 w0 (rs_tas r) (rs_types r) (rs_start r) = Done (Ok zero_tree)) ->
    known v o past seen r -> known v o (past ++ [(m0, f0, w0)])%list seen r.
  Proof.
    intros Z (A & B & C & [[D Q]|(m & f & w & I & M & D)]); (split; [exact A|]; split; [exact B|]; split; [exact C|]).
    - left. split; [exact D|]. intros m f w I M. apply in_app_iff in I. destruct I as [I|[[= <- <- <-]|[]]]; [exact (Q m f w I M)|exact (Z M)].
    - right. exists m, f, w. split; [apply in_or_app; now left|auto].
  Qed.
  Lemma known_weaken v o past seen r : known v o past seen r -> known v o past false r.
  Proof.
    destruct seen; [|auto]. intros (A & B & C & [D|(m & f & w & I & M & D)]); (split; [exact A|]; split; [exact B|]; split; [exact C|]); [now left|].
    right. exists m, f, w. split; [exact I|]. split; [exact M|]. now apply based_weaken.
  Qed.

  Lemma known_resolve v o past seen m f w t r c r' c' :
    treeless c -> (forall i, (zero_time + 2 <= t i)%Z) -> w_verify w = v -> m = MResolve \/ m = MValidChains ->
    known v o past seen r -> do_resolve hash f w t r c = Done (Ok (r', c')) ->
    c' = c /\ known v o (past ++ [(m, f, w)])%list false r'.
  Proof.
    intros TL T W M K E. destruct (resolve_memory _ _ _ _ _ _ TL T E) as (tr & R & X). injection X as -> ->. split; [reflexivity|].
    destruct (t_entity tr) as [en|] eqn:N; [|apply known_more; [intros _; now rewrite (proj1 (proj2 (resolve_tree_root _ _ _ _ _ _ R) N)) in R|now apply known_weaken in K]].
    destruct K as (A & B & C & _). split; [exact A|]. split; [exact B|]. split; [exact C|]. right. exists m, f, w.
    split; [apply in_or_app; right; now left|]. split; [exact M|]. now apply (resolved_based v f w r tr en).
  Qed.

  Lemma known_verify v o past seen w t r c r' c' :
    treeless c -> (forall i, (zero_time + 2 <= t i)%Z) -> w_verify w = v ->
    known v o past seen r -> do_verify hash w t r c = Ok (r', c') -> c' = c /\ known v o past true r'.
  Proof.
    intros TL T W K E. destruct (verify_memory _ _ _ _ _ TL T (known_expires _ _ _ _ _ K) E) as (b & tr & V & X). injection X as -> ->.
    split; [reflexivity|]. destruct K as (A & B & C & [[D Q]|(m & f & w0 & I & M & D)]); (split; [exact A|]; split; [exact B|]; split; [exact C|]).
    - left. destruct (verify_blank w r b tr D V) as [-> ->]. split; [split; reflexivity|exact Q].
    - right. exists m, f, w0. split; [exact I|]. split; [exact M|]. exact (verify_based _ _ _ _ _ _ _ _ D W V).
  Qed.

  Definition seen_after (seen : bool) (m : method) : bool :=
    match m with MResolve => false | MVerifySignatures | MValidChains => true | MChains => seen end.

  Lemma known_call v o past seen m f w t r c cs r' c' :
    treeless c -> (forall i, (zero_time + 2 <= t i)%Z) -> w_verify w = v ->
    known v o past seen r -> do_call hash m f w t r c = Done (Ok (cs, r', c')) ->
    c' = c /\ known v o (past ++ [(m, f, w)])%list (seen_after seen m) r' /\
    (m = MChains \/ m = MValidChains -> cs = tree_chains (rs_tree r')).
  Proof.
    intros TL T W K. destruct m; cbn [do_call seen_after].
    - destruct (do_resolve hash f w t r c) as [[[r1 c1]| |]|] eqn:E; cbn [bind]; try discriminate. intros [= _ <- <-].
      destruct (known_resolve v o past seen MResolve f w t r c r1 c1 TL T W (or_introl eq_refl) K E) as [-> K1].
      split; [reflexivity|]. split; [exact K1|]. now intros [?|?].
    - destruct (do_verify hash w t r c) as [[r1 c1]| |] eqn:E; cbn [bind]; try discriminate. intros [= _ <- <-].
      destruct (known_verify v o past seen w t r c r1 c1 TL T W K E) as [-> K1].
      split; [reflexivity|]. split; [apply known_more; [now intros [?|?]|exact K1]|]. now intros [?|?].
    - rewrite (chains_memory t r c TL T (known_expires _ _ _ _ _ K)). intros [= <- <- <-]. split; [reflexivity|]. split; [apply known_more; [now intros [?|?]|exact K]|reflexivity].
    - destruct TL as (l & -> & H). destruct (no_tree r l H) as [A B]. cbn [cache_get]. unfold mem_get. rewrite B.
      assert (TL : treeless (Memory l)) by (exists l; auto).
      destruct (do_resolve hash f w t r (Memory l)) as [[[r1 c1]| |]|] eqn:E; cbn [bind]; try discriminate.
      destruct (known_resolve v o past seen MValidChains f w t r _ r1 c1 TL T W (or_intror eq_refl) K E) as [-> K1].
      destruct (do_verify hash w t r1 (Memory l)) as [[r2 c2]| |] eqn:V; cbn [bind]; try discriminate.
      destruct (known_verify v o _ false w t r1 _ r2 c2 TL T W K1 V) as [-> K2].
      rewrite (chains_memory t r2 _ TL T (known_expires _ _ _ _ _ K2)). intros [= <- <- <-]. split; [reflexivity|]. split; [exact K2|reflexivity].
  Qed.

  (** ** Histories *)
  Lemma treeless_other v s k x now ttl l : ordinary v (EOther now s k x ttl) -> treeless (Memory l) -> treeless (cache_set now (cache_key s k) x ttl (Memory l)).
  Proof.
    intros (IS & N1 & N2) (l0 & [= <-] & H). cbn [cache_set]. eexists. split; [reflexivity|]. intros e y I.
    assert (I' : In e (entries (cache_set now (cache_key s k) x ttl (Memory l)))) by exact I.
    apply set_entries in I'. assert (SB : In s subsystems) by exact IS.
    destruct I' as [[I' _]|E]; [exact (H e y I')|].
    assert (EK : en_key e = cache_key s k) by (try apply E; try (now rewrite E)). rewrite EK.
    split; intros C; apply keys_injective in C; try exact SB; try (cbn; tauto); destruct C as [C _]; contradiction.
  Qed.
  Lemma treeless_sweep now which c : treeless c -> treeless (cache_sweep now which c).
  Proof. intros (l & -> & H). cbn [cache_sweep]. eexists. split; [reflexivity|]. intros e x I. apply filter_incl in I. exact (H e x I). Qed.

  Lemma put_same {A} i (x y : A) l : nth_error l i = Some y -> nth_error (put i x l) i = Some x.
  Proof. revert l. induction i as [|i IH]; intros [|z l]; try discriminate; cbn; [reflexivity|apply IH]. Qed.
  Lemma put_other {A} i j (x : A) l : i <> j -> nth_error (put i x l) j = nth_error l j.
  Proof. revert j l. induction i as [|i IH]; intros [|j] [|z l] N; cbn; try reflexivity; try congruence. apply IH. congruence. Qed.

  Lemma calls_snoc i h e : calls_of i (h ++ [e])%list = (calls_of i h ++ calls_of i [e])%list.
  Proof. unfold calls_of. now rewrite flat_map_app. Qed.
  Lemma verified_snoc i h e : verified_last i (h ++ [e])%list =
    match e with ECall j m _ _ _ => if Nat.eqb j i then seen_after (verified_last i h) m else verified_last i h | _ => verified_last i h end.
  Proof. unfold verified_last. rewrite fold_left_app. cbn [fold_left]. destruct e as [j m f w t| |]; [|reflexivity|reflexivity]. destruct (Nat.eqb j i); [|reflexivity]. now destruct m. Qed.

  Theorem history_known v objs h s s' : history hash s h s' -> s = start_with objs (Memory []) -> Forall (ordinary v) h ->
    treeless (snd s') /\
    forall i r, nth_error (fst s') i = Some r -> exists o, nth_error objs i = Some o /\ known v o (calls_of i h) (verified_last i h) r.
  Proof.
    intros HI. induction HI as [s|s h s1 e cs s2 HI IH HP]; intros -> F.
    - split; [exists []; split; [reflexivity|intros e x []]|]. cbn [start_with fst]. intros i r. rewrite nth_error_map.
      destruct (nth_error objs i) as [o|]; [|discriminate]. intros [= <-]. exists o. split; [reflexivity|].
      split; [reflexivity|]. split; [reflexivity|]. split; [reflexivity|]. left. split; [split; reflexivity|intros m f w []].
    - apply Forall_app in F. destruct F as [F FE]. inversion FE as [|? ? OE _]; subst. destruct (IH eq_refl F) as [TL K]. clear IH.
      inversion HP as [objs1 c who m fuel w t r cs1 r' c' N D|objs1 c now ss sk x ttl|objs1 c now which]; subst; cbn [fst snd] in *.
      + destruct OE as [T W]. destruct (K who r N) as (o & NO & KO).
        destruct (known_call v o _ _ m fuel w t r c cs r' c' TL T W KO D) as (-> & K' & _). split; [exact TL|].
        intros i r0 NI. rewrite calls_snoc, verified_snoc. cbn [calls_of flat_map]. destruct (Nat.eqb_spec who i) as [<-|NE].
        * rewrite (put_same _ _ _ _ N) in NI. injection NI as <-. exists o. split; [exact NO|exact K'].
        * rewrite put_other in NI by exact NE. destruct (K i r0 NI) as (o' & NO' & K0). exists o'. split; [exact NO'|]. cbn [app]. now rewrite app_nil_r.
      + split; [destruct TL as (l & -> & H); apply (treeless_other v ss sk x now ttl l OE); exists l; auto|].
        intros i r NI. destruct (K i r NI) as (o & NO & K0). exists o. split; [exact NO|]. rewrite calls_snoc, verified_snoc. cbn [calls_of flat_map]. now rewrite app_nil_r.
      + split; [now apply treeless_sweep|].
        intros i r NI. destruct (K i r NI) as (o & NO & K0). exists o. split; [exact NO|]. rewrite calls_snoc, verified_snoc. cbn [calls_of flat_map]. now rewrite app_nil_r.
  Qed.

  (** ** The theorems *)
  Lemma based_chains v f w r : based v true f w r -> resolve_chains f w (rs_tas r) (rs_types r) (rs_start r) = Done (Ok (tree_chains (rs_tree r))).
  Proof.
    intros (_ & tr0 & R & _ & [(E & _)|V]); [discriminate|]. unfold resolve_chains. rewrite R. cbn [bind]. rewrite V. reflexivity.
  Qed.

  Theorem chains_verified v objs h rs c who f w t cs s' ch :
    history hash (start_with objs (Memory [])) h (rs, c) -> Forall (ordinary v) h -> ordinary v (ECall who MChains f w t) ->
    verified_last who h = true -> happens hash (rs, c) (ECall who MChains f w t) cs s' -> In ch cs ->
    exists start tas types m f0 w0, nth_error objs who = Some (start, tas, types) /\ In (m, f0, w0) (calls_of who h) /\
      (m = MResolve \/ m = MValidChains) /\ returned w0 tas types start ch.
  Proof.
    intros HI F [T W] VL HP I. destruct (history_known v objs h _ _ HI eq_refl F) as [TL K].
    inversion HP as [objs1 c0 who0 m fuel w0 t0 r cs1 r' c' N D| |]; subst. cbn [fst snd] in *.
    destruct (K who r N) as ([[start tas] types] & NO & KO). rewrite VL in KO.
    cbn [do_call] in D. rewrite (chains_memory t r c TL T (known_expires _ _ _ _ _ KO)) in D. injection D as <- <- <-.
    destruct KO as (A & B & C & [[[E _] _]|(m & f0 & w0 & IC & M & BA)]); [rewrite E in I; destruct I|]. cbn [fst snd] in *.
    exists start, tas, types, m, f0, w0. split; [exact NO|]. split; [exact IC|]. split; [exact M|].
    apply based_chains in BA. rewrite A, B, C in BA. exists f0, (tree_chains (rs_tree r)). split; [now left|exact I].
  Qed.

  (** A resolution and then only verifications and readings. *)
  Theorem chains_stepwise v objs h rs c who f w t cs s' start tas types f0 w0 rest :
    history hash (start_with objs (Memory [])) h (rs, c) -> Forall (ordinary v) h -> ordinary v (ECall who MChains f w t) ->
    nth_error objs who = Some (start, tas, types) ->
    calls_of who h = (MResolve, f0, w0) :: rest -> (forall m f1 w1, In (m, f1, w1) rest -> m = MVerifySignatures \/ m = MChains) ->
    verified_last who h = true ->
    happens hash (rs, c) (ECall who MChains f w t) cs s' ->
    resolve_chains f0 w0 tas types start = Done (Ok cs).
  Proof.
    intros HI F [T W] NO CA RE VL HP. destruct (history_known v objs h _ _ HI eq_refl F) as [TL K].
    inversion HP as [objs1 c0 who0 m fuel w1 t0 r cs1 r' c' N D| |]; subst. cbn [fst snd] in *.
    destruct (K who r N) as (o & NO' & KO). rewrite NO in NO'. injection NO' as <-. rewrite VL in KO.
    cbn [do_call] in D. rewrite (chains_memory t r c TL T (known_expires _ _ _ _ _ KO)) in D. injection D as <- <- <-.
    rewrite CA in KO. destruct KO as (A & B & C & [[[E _] Q]|(m & f1 & w1 & IC & M & BA)]); cbn [fst snd] in *.
    - specialize (Q MResolve f0 w0 (or_introl eq_refl) (or_introl eq_refl)). rewrite A, B, C in Q. unfold resolve_chains. rewrite Q, E. reflexivity.
    - destruct IC as [[= <- <- <-]|IC].
      + apply based_chains in BA. now rewrite A, B, C in BA.
      + destruct (RE _ _ _ IC) as [-> | ->]; now destruct M.
  Qed.

  (** ResolveToValidChains when the configuration of the starting entity is obtained. *)
  Theorem valid_again v objs h rs c who f w t cs s' start tas types :
    history hash (start_with objs (Memory [])) h (rs, c) -> Forall (ordinary v) h -> ordinary v (ECall who MValidChains f w t) ->
    nth_error objs who = Some (start, tas, types) -> start <> "" -> w_config w [] start <> None ->
    happens hash (rs, c) (ECall who MValidChains f w t) cs s' ->
    resolve_chains f w tas types start = Done (Ok cs).
  Proof.
    intros HI F [T W] NO S0 CF HP. destruct (history_known v objs h _ _ HI eq_refl F) as [TL K].
    inversion HP as [objs1 c0 who0 m fuel w1 t0 r cs1 r' c' N D| |]; subst. cbn [fst snd] in *.
    destruct (K who r N) as (o & NO' & KO). rewrite NO in NO'. injection NO' as <-. destruct KO as (A & B & C & _). cbn [fst snd] in *.
    destruct TL as (l & -> & H). destruct (no_tree r l H) as [FT FC]. cbn [do_call cache_get] in D. unfold mem_get in D. rewrite FC in D.
    assert (TL : treeless (Memory l)) by (exists l; auto).
    destruct (do_resolve hash f w t r (Memory l)) as [[[r1 c1]| |]|] eqn:E; cbn [bind] in D; try discriminate.
    destruct (resolve_memory _ _ _ _ _ _ TL T E) as (tr & R & X). injection X as -> ->.
    pose proof (proj2 (resolve_tree_root _ _ _ _ _ _ R)) as ZR.
    destruct (t_entity tr) as [en|] eqn:EN; [|destruct (ZR eq_refl) as [_ [?|?]]; congruence].
    assert (LE : expires (rs_tree (with_tree r tr false))) by exact (resolve_tree_exp_le _ _ _ _ _ _ R).
    destruct (do_verify hash w t (with_tree r tr false) (Memory l)) as [[r2 c2]| |] eqn:V; cbn [bind] in D; try discriminate.
    destruct (verify_memory _ _ _ _ _ TL T LE V) as (b & tr' & VV & X). injection X as -> ->. cbn [with_tree rs_verified rs_tree rs_tas] in VV.
    assert (LE' : expires (rs_tree (with_tree (with_tree r tr false) tr' b))).
    { unfold expires. cbn [with_tree rs_tree]. rewrite (verify_sigs_exp _ _ _ _ _ VV). exact LE. }
    rewrite (chains_memory t _ _ TL T LE') in D. cbn [with_tree rs_tree] in D. injection D as <- <- <-.
    rewrite A, B, C in R. rewrite B in VV. unfold resolve_chains. rewrite R. cbn [bind]. rewrite VV. reflexivity.
  Qed.

  (** A new resolver, with any cache: the calls one by one are what ResolveToValidChains does. *)
  Theorem valid_fresh f w t start tas types c cs r' c' :
    do_call hash MValidChains f w t (new_resolver start tas types) c = Done (Ok (cs, r', c')) ->
    resolve_cached hash f w tas types start t c = (Done (Ok cs), c').
  Proof.
    unfold resolve_cached. cbn [do_call]. unfold my_chains_key at 1. cbn [new_resolver rs_start rs_tas rs_types].
    assert (TAIL : forall tr c1,
      Done ('(r2, c2) <- do_verify hash w t (with_tree (new_resolver start tas types) tr false) c1 ;;
            let (cs, c3) := do_chains hash t r2 c2 in Ok (cs, r2, c3)) = Done (Ok (cs, r', c')) ->
      match verify_sigs w tas tr with
      | Panic => (Done Panic, c1)
      | Err => (Done Err, c1)
      | Ok (_, tr') =>
          match cache_get (t 4) (chains_key hash start tas types) (cache_set (t 3) (tree_key hash start tas types) (CTree tr') (until (t_exp tr') (t 3)) c1) with
          | (Some (CChains cs), c4) => (Done (Ok (map (map stmt_msgpack) cs)), c4)
          | (_, c4) =>
              match tree_chains tr' with
              | [] => (Done (Ok []), c4)
              | cs => (Done (Ok cs), cache_set (t 5) (chains_key hash start tas types) (CChains cs) (until (t_exp tr') (t 5)) c4)
              end
          end
      end = (Done (Ok cs), c')).
    { intros tr c1. unfold do_verify. cbn [with_tree new_resolver rs_verified rs_tas rs_tree rs_start rs_types].
      destruct (verify_sigs w tas tr) as [[b tr']| |]; cbn [bind]; try discriminate. unfold do_chains, my_chains_key, my_tree_key.
      cbn [with_tree new_resolver rs_verified rs_tas rs_tree rs_start rs_types].
      destruct (cache_get (t 4) _ _) as [[[?|?|?|?]|] c4]; try (now intros [= <- _ <-]);
        destruct (tree_chains tr'); now intros [= <- _ <-]. }
    assert (MID : forall c0,
      match do_resolve hash f w t (new_resolver start tas types) c0 with
      | OutOfFuel => OutOfFuel
      | Done x => Done ('(r1, c1) <- x ;; '(r2, c2) <- do_verify hash w t r1 c1 ;; let (cs, c3) := do_chains hash t r2 c2 in Ok (cs, r2, c3))
      end = Done (Ok (cs, r', c')) ->
      (let '(r, c2) :=
         match cache_get (t 1) (tree_key hash start tas types) c0 with
         | (Some (CTree tr), c1) => (Done (Ok (tree_msgpack tr)), c1)
         | (_, c1) =>
             match resolve_tree f w tas types start with
             | Done (Ok tr) => (Done (Ok tr), match t_entity tr with Some _ => cache_set (t 2) (tree_key hash start tas types) (CTree tr) (until (t_exp tr) (t 2)) c1 | None => c1 end)
             | r => (r, c1)
             end
         end in
       match r with
       | OutOfFuel => (OutOfFuel, c2)
       | Done Panic => (Done Panic, c2)
       | Done Err => (Done Err, c2)
       | Done (Ok tr) =>
           match verify_sigs w tas tr with
           | Panic => (Done Panic, c2)
           | Err => (Done Err, c2)
           | Ok (_, tr') =>
               match cache_get (t 4) (chains_key hash start tas types) (cache_set (t 3) (tree_key hash start tas types) (CTree tr') (until (t_exp tr') (t 3)) c2) with
               | (Some (CChains cs), c4) => (Done (Ok (map (map stmt_msgpack) cs)), c4)
               | (_, c4) =>
                   match tree_chains tr' with
                   | [] => (Done (Ok []), c4)
                   | cs => (Done (Ok cs), cache_set (t 5) (chains_key hash start tas types) (CChains cs) (until (t_exp tr') (t 5)) c4)
                   end
               end
           end
       end) = (Done (Ok cs), c')).
    { intros c0. unfold do_resolve, my_tree_key. cbn [with_tree new_resolver rs_verified rs_tas rs_tree rs_start rs_types].
      destruct (cache_get (t 1) _ c0) as [[[?|tr|?|?]|] c1]; try (cbn [bind]; apply TAIL);
        (destruct (resolve_tree f w tas types start) as [[tr| |]|] eqn:R; try discriminate;
         pose proof (proj2 (resolve_tree_root _ _ _ _ _ _ R)) as ZR;
         destruct (t_entity tr) as [en|]; [cbn [bind]; apply TAIL|]; destruct (ZR eq_refl) as [-> _]; cbn [bind];
         exact (TAIL zero_tree c1)). }
    destruct (cache_get (t 0) _ c) as [[[?|?|?|?]|] c0]; try apply MID. now intros [= <- _ <-].
  Qed.
End Steps.
