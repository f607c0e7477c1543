(** Proofs about caching. *)
From Coq Require Import QArith Lqa Qabs NArith Nnat.
From Verif Require Import Base GoVal Policy Schema Metadata Chain BaseFacts Resolver ResolverFacts ResolverLaws TrustMark Refresher FloatTime FloatFacts Cache SpecCache.
Local Open Scope nat_scope.
Local Open Scope string_scope.
Local Open Scope list_scope.

(** ** Keys *)

Lemma b64_char_ok : forallb (fun n => forallb (fun m => (if Ascii.eqb (b64_char n) (b64_char m) then N.eqb n m else true)) (map N.of_nat (seq 0 64))
    && negb (Ascii.eqb (b64_char n) ":"%char) && negb (Ascii.eqb (b64_char n) "="%char)) (map N.of_nat (seq 0 64)) = true.
Proof. vm_compute. reflexivity. Qed.

Lemma in_64 n : (n < 64)%N -> In n (map N.of_nat (seq 0 64)).
Proof. intros H. apply in_map_iff. exists (N.to_nat n). split; [apply N2Nat.id|apply in_seq; lia]. Qed.

Lemma b64_char_inj n m : (n < 64)%N -> (m < 64)%N -> b64_char n = b64_char m -> n = m.
Proof.
  intros Hn Hm E. pose proof (proj1 (forallb_forall _ _) b64_char_ok n (in_64 n Hn)) as H.
  apply andb_prop in H. destruct H as [H _]. apply andb_prop in H. destruct H as [H _].
  pose proof (proj1 (forallb_forall _ _) H m (in_64 m Hm)) as H'. cbv beta in H'.
  rewrite E, Ascii.eqb_refl in H'. now apply N.eqb_eq.
Qed.
Lemma b64_char_colon n : (n < 64)%N -> b64_char n <> ":"%char.
Proof.
  intros Hn E. pose proof (proj1 (forallb_forall _ _) b64_char_ok n (in_64 n Hn)) as H.
  cbv beta in H. rewrite E in H. apply andb_prop in H. destruct H as [H _]. apply andb_prop in H. destruct H as [_ H]. discriminate H.
Qed.
Lemma b64_char_pad n : (n < 64)%N -> b64_char n <> "="%char.
Proof.
  intros Hn E. pose proof (proj1 (forallb_forall _ _) b64_char_ok n (in_64 n Hn)) as H.
  cbv beta in H. rewrite E in H. apply andb_prop in H. destruct H as [_ H]. discriminate H.
Qed.

Lemma ascii_256 a : (N_of_ascii a < 256)%N. Proof. apply N_ascii_bounded. Qed.
Lemma N_of_ascii_inj a b : N_of_ascii a = N_of_ascii b -> a = b.
Proof. intros E. rewrite <- (ascii_N_embedding a), <- (ascii_N_embedding b). now rewrite E. Qed.

Lemma b64_number_bound a b c : (b64_number a b c / 262144 < 64)%N.
Proof.
  unfold b64_number. pose proof (ascii_256 a). pose proof (ascii_256 b). pose proof (ascii_256 c).
  apply N.div_lt_upper_bound; lia.
Qed.
Lemma mod64 n : (n mod 64 < 64)%N. Proof. now apply N.mod_lt. Qed.
Lemma b64_number_inj a b c a' b' c' : b64_number a b c = b64_number a' b' c' -> a = a' /\ b = b' /\ c = c'.
Proof.
  unfold b64_number. pose proof (ascii_256 a). pose proof (ascii_256 b). pose proof (ascii_256 c).
  pose proof (ascii_256 a'). pose proof (ascii_256 b'). pose proof (ascii_256 c').
  intros E. repeat split; apply N_of_ascii_inj; lia.
Qed.
Lemma digits n m : (n / 262144 = m / 262144 -> (n / 4096) mod 64 = (m / 4096) mod 64 ->
  (n / 64) mod 64 = (m / 64) mod 64 -> n mod 64 = m mod 64 -> n = m)%N.
Proof.
  intros. assert (forall x, x = (x / 262144) * 262144 + ((x / 4096) mod 64) * 4096 + ((x / 64) mod 64) * 64 + x mod 64)%N as D.
  { intros x. pose proof (N.div_mod x 64). pose proof (N.div_mod (x / 64) 64). pose proof (N.div_mod (x / 4096) 64).
    rewrite N.div_div in H4 by lia. change (64 * 64)%N with 4096%N in H4. rewrite N.div_div in H5 by lia.
    change (4096 * 64)%N with 262144%N in H5. lia. }
  rewrite (D n), (D m). congruence.
Qed.

Lemma string_ind3 (P : string -> Prop) :
  P "" -> (forall a, P (String a "")) -> (forall a b, P (String a (String b ""))) ->
  (forall a b c r, P r -> P (String a (String b (String c r)))) -> forall s, P s.
Proof.
  intros H0 H1 H2 H3. fix IH 1. intros [|a [|b [|c r]]]; [exact H0|apply H1|apply H2|apply H3, IH].
Qed.

Opaque b64_number b64_char N.div N.modulo.

Lemma number0 a : exists x, b64_number a zero zero = (x * 65536)%N.
Proof. Transparent b64_number. exists (N_of_ascii a). unfold b64_number. change (N_of_ascii zero) with 0%N. lia. Opaque b64_number. Qed.
Lemma number1 a b : exists x, b64_number a b zero = (x * 256)%N.
Proof. Transparent b64_number. exists (N_of_ascii a * 256 + N_of_ascii b)%N. unfold b64_number. change (N_of_ascii zero) with 0%N. lia. Opaque b64_number. Qed.

Lemma low0 a : ((b64_number a zero zero) mod 64 = 0 /\ (b64_number a zero zero / 64) mod 64 = 0)%N.
Proof.
  destruct (number0 a) as [x ->]. split.
  - replace (x * 65536)%N with ((x * 1024) * 64)%N by lia. now apply N.mod_mul.
  - replace (x * 65536)%N with ((x * 1024) * 64)%N by lia. rewrite N.div_mul by lia.
    replace (x * 1024)%N with ((x * 16) * 64)%N by lia. now apply N.mod_mul.
Qed.
Lemma low1 a b : ((b64_number a b zero) mod 64 = 0)%N.
Proof.
  destruct (number1 a b) as [x ->]. replace (x * 256)%N with ((x * 4) * 64)%N by lia. now apply N.mod_mul.
Qed.

Lemma b64_inj : forall s s', b64 s = b64 s' -> s = s'.
Proof.
  induction s as [|a|a b|a b c r IH] using string_ind3; intros s' E;
    destruct s' as [|a' [|b' [|c' r']]]; cbn [b64] in E; try discriminate E; try reflexivity; injection E; clear E.
  - intros E2 E1. apply b64_char_inj in E1; [|apply b64_number_bound|apply b64_number_bound].
    apply b64_char_inj in E2; [|apply mod64|apply mod64].
    destruct (low0 a) as [L1 L2], (low0 a') as [L1' L2'].
    assert (E : b64_number a zero zero = b64_number a' zero zero) by (apply digits; congruence).
    apply b64_number_inj in E. destruct E as [-> _]. reflexivity.
  - intros E3 _ _. exfalso. symmetry in E3. revert E3. apply b64_char_pad, mod64.
  - intros _ _ E3 _ _. exfalso. symmetry in E3. revert E3. apply b64_char_pad, mod64.
  - intros E3 _ _. exfalso. revert E3. apply b64_char_pad, mod64.
  - intros E3 E2 E1. apply b64_char_inj in E1; [|apply b64_number_bound|apply b64_number_bound].
    apply b64_char_inj in E2; [|apply mod64|apply mod64]. apply b64_char_inj in E3; [|apply mod64|apply mod64].
    pose proof (low1 a b). pose proof (low1 a' b').
    assert (E : b64_number a b zero = b64_number a' b' zero) by (apply digits; congruence).
    apply b64_number_inj in E. destruct E as (-> & -> & _). reflexivity.
  - intros _ E4 _ _ _. exfalso. symmetry in E4. revert E4. apply b64_char_pad, mod64.
  - intros _ _ E3 _ _. exfalso. revert E3. apply b64_char_pad, mod64.
  - intros _ E4 _ _ _. exfalso. revert E4. apply b64_char_pad, mod64.
  - intros E5 E4 E3 E2 E1. apply b64_char_inj in E1; [|apply b64_number_bound|apply b64_number_bound].
    apply b64_char_inj in E2; [|apply mod64|apply mod64]. apply b64_char_inj in E3; [|apply mod64|apply mod64].
    apply b64_char_inj in E4; [|apply mod64|apply mod64].
    assert (E : b64_number a b c = b64_number a' b' c') by (apply digits; congruence).
    apply b64_number_inj in E. destruct E as (-> & -> & ->). now rewrite (IH _ E5).
Qed.

(** Strings without colon. *)
Fixpoint no_colon (s : string) : Prop :=
  match s with EmptyString => True | String c s' => c <> ":"%char /\ no_colon s' end.

Lemma b64_no_colon s : no_colon (b64 s).
Proof.
  induction s as [|a|a b|a b c r IH] using string_ind3; cbn [b64 no_colon]; repeat split; try (apply b64_char_colon); try apply mod64;
    try apply b64_number_bound; try discriminate. exact IH.
Qed.

Lemma colon_split : forall x x' y y', no_colon x -> no_colon x' ->
  (x ++ ":" ++ y = x' ++ ":" ++ y')%string -> x = x' /\ y = y'.
Proof.
  induction x as [|c x IH]; intros [|c' x'] y y' Hx Hx' E; cbn in E.
  - split; [reflexivity|]. now injection E.
  - injection E as E _. destruct Hx' as [H _]. now elim H.
  - injection E as E _. destruct Hx as [H _]. now elim H.
  - injection E as Ec E. destruct Hx as [_ Hx], Hx' as [_ Hx']. destruct (IH x' y y' Hx Hx' E) as [-> ->]. now subst.
Qed.

Lemma subsystem_no_colon s : In s subsystems -> no_colon s.
Proof.
  unfold subsystems. cbn [In]. intros H. repeat (destruct H as [<- | H]; [cbn; repeat split; discriminate|]). destruct H.
Qed.

Theorem keys_injective s k s' k' :
  In s subsystems -> In s' subsystems -> cache_key s k = cache_key s' k' -> s = s' /\ k = k'.
Proof. intros H H' E. exact (colon_split _ _ _ _ (subsystem_no_colon s H) (subsystem_no_colon s' H') E). Qed.

Theorem stmt_keys_injective sub iss sub' iss' : stmt_key sub iss = stmt_key sub' iss' -> sub = sub' /\ iss = iss'.
Proof.
  unfold stmt_key. intros E. apply keys_injective in E; [|cbn; tauto|cbn; tauto]. destruct E as [_ E].
  apply colon_split in E; [|apply b64_no_colon|apply b64_no_colon]. destruct E as [E1 E2].
  split; now apply b64_inj.
Qed.

Theorem stmt_keys_apart sub iss s k : In s subsystems -> s <> key_entity_statement -> cache_key s k <> stmt_key sub iss.
Proof. intros H N E. apply keys_injective in E; [|exact H|cbn; tauto]. now destruct E. Qed.
Transparent b64_number b64_char N.div N.modulo.

(** ** The in-memory cache *)

Section Memory.
  Context {V : Type}.
  Implicit Types (l a b : list (entry V)) (e : entry V) (k : string) (h : list (op V)).

  Lemma find_some k l e : find_entry k l = Some e -> In e l /\ en_key e = k.
  Proof. intros H. apply find_some in H. destruct H as [H E]. split; [exact H|]. now apply String.eqb_eq. Qed.

  Lemma find_none k l : find_entry k l = None <-> ~ In k (map en_key l).
  Proof.
    split.
    - intros H I. apply in_map_iff in I. destruct I as (e & E & I). pose proof (find_none _ _ H e I) as F.
      cbv beta in F. rewrite E, String.eqb_refl in F. discriminate.
    - intros H. destruct (find_entry k l) as [e|] eqn:E; [|reflexivity]. apply find_some in E. destruct E as [I <-].
      elim H. now apply in_map.
  Qed.

  Lemma find_drop_same k l : find_entry k (drop_entry k l) = None.
  Proof.
    apply find_none. intros I. apply in_map_iff in I. destruct I as (e & E & I). apply filter_In in I. destruct I as [_ I].
    rewrite E, String.eqb_refl in I. discriminate.
  Qed.

  Lemma find_filter (f : entry V -> bool) k l : (forall e, In e l -> en_key e = k -> f e = true) ->
    find_entry k (filter f l) = find_entry k l.
  Proof.
    unfold find_entry. induction l as [|e l IH]; intros H; [reflexivity|]. cbn [filter find].
    destruct (f e) eqn:F; cbn [find]; destruct (String.eqb (en_key e) k) eqn:E.
    - reflexivity.
    - apply IH. intros x I. apply H. now right.
    - apply String.eqb_eq in E. rewrite (H e (or_introl eq_refl) E) in F. discriminate.
    - apply IH. intros x I. apply H. now right.
  Qed.

  Lemma find_drop_other k k' l : k' <> k -> find_entry k (drop_entry k' l) = find_entry k l.
  Proof.
    intros N. apply find_filter. intros e _ E. rewrite E. apply negb_true_iff. now apply String.eqb_neq; congruence.
  Qed.

  Lemma find_filter_some (f : entry V -> bool) k l e : find_entry k (filter f l) = Some e -> NoDup (map en_key l) -> find_entry k l = Some e.
  Proof.
    unfold find_entry. induction l as [|x l IH]; [discriminate|]. cbn [filter map]. intros H ND. inversion ND as [|? ? N1 N2]; subst.
    cbn [find]. destruct (String.eqb (en_key x) k) eqn:E.
    - apply String.eqb_eq in E. destruct (f x) eqn:F.
      + cbn [find] in H. rewrite E, String.eqb_refl in H. exact H.
      + exfalso. apply N1. rewrite E. apply List.find_some in H. destruct H as [I K]. apply String.eqb_eq in K.
        apply filter_In in I. apply in_map_iff. exists e. tauto.
    - apply IH; [|exact N2]. destruct (f x); [|exact H]. cbn [find] in H. now rewrite E in H.
  Qed.

  Lemma filter_nodup (f : entry V -> bool) l : NoDup (map en_key l) -> NoDup (map en_key (filter f l)).
  Proof.
    induction l as [|x l IH]; [easy|]. cbn [map filter]. intros ND. inversion ND as [|? ? N1 N2]; subst.
    destruct (f x); [|now apply IH]. cbn [map]. constructor; [|now apply IH].
    intros I. apply N1. apply in_map_iff in I. destruct I as (e & E & I). apply filter_In in I. apply in_map_iff. exists e. tauto.
  Qed.

  Lemma last_set_snoc k h o : last_set k (h ++ [o]) =
    match o with OSet t k' v ttl => if String.eqb k' k then Some (t, v, ttl) else last_set k h | _ => last_set k h end.
  Proof. unfold last_set. rewrite fold_left_app. cbn [fold_left]. destruct o; reflexivity. Qed.
  Lemma set_since_snoc k h o : set_since k (h ++ [o]) =
    match o with OSet t k' v ttl => if String.eqb k' k then [] else if mem k' (set_since k h) then set_since k h else k' :: set_since k h
               | _ => set_since k h end.
  Proof. unfold set_since. rewrite fold_left_app. cbn [fold_left]. destruct o; reflexivity. Qed.

  Lemma set_since_grow k h o : set_since k (h ++ [o]) = [] \/ incl (set_since k h) (set_since k (h ++ [o])).
  Proof.
    rewrite set_since_snoc. destruct o as [t k' v ttl|t k'|t w]; try (right; apply incl_refl).
    destruct (String.eqb k' k); [now left|]. right. destruct (mem k' _); [apply incl_refl|]. apply incl_tl, incl_refl.
  Qed.

  Definition storing (ttl : Z) : bool := negb (negb (Z.eqb ttl (-1)) && Z.ltb ttl 1).

  (** What the list of entries looks like after the history [h]. *)
  Record consistent h l : Prop := {
    co_nodup : NoDup (map en_key l);
    co_val : forall k e, find_entry k l = Some e ->
      exists t ttl, last_set k h = Some (t, en_val e, ttl) /\ storing ttl = true /\ en_exp e = mem_exp t ttl;
    co_pos : forall a e b, l = a ++ e :: b -> forall e', In e' a -> In (en_key e') (set_since (en_key e) h) }.

  Lemma consistent_filter f h o l : consistent h l -> (forall t k v ttl, o <> OSet t k v ttl) ->
    consistent (h ++ [o]) (filter f l).
  Proof.
    intros [N Va P] NO. constructor.
    - now apply filter_nodup.
    - intros k e H. apply find_filter_some in H; [|exact N]. destruct (Va k e H) as (t & ttl & E & H1 & H2).
      exists t, ttl. rewrite last_set_snoc. destruct o; [now elim (NO now k0 v ttl0)| |]; auto.
    - intros a e b E e' I.
      assert (S : set_since (en_key e) (h ++ [o]) = set_since (en_key e) h)
        by (rewrite set_since_snoc; destruct o; [now elim (NO now k v ttl)| |]; reflexivity).
      rewrite S. clear S NO.
      enough (F : forall l0 a e b e', filter f l0 = a ++ e :: b -> In e' a -> exists a' b', l0 = a' ++ e :: b' /\ In e' a').
      { destruct (F l a e b e' E I) as (a' & b' & -> & I'). exact (P a' e b' eq_refl e' I'). }
      clear. induction l0 as [|x l0 IH]; intros a e b e' E I.
      { destruct a; discriminate. }
      cbn [filter] in E. destruct (f x).
      + destruct a as [|y a]; [destruct I|]. cbn in E. injection E as <- E.
        destruct I as [-> | I].
        * assert (In e l0) as J by (assert (In e (filter f l0)) as J by (rewrite E; apply in_app_iff; right; now left); now apply filter_In in J).
          apply in_split in J. destruct J as (a' & b' & ->). exists (e' :: a'), b'. split; [reflexivity|now left].
        * destruct (IH a e b e' E I) as (a' & b' & -> & I'). exists (x :: a'), b'. split; [reflexivity|now right].
      + destruct (IH a e b e' E I) as (a' & b' & -> & I'). exists (x :: a'), b'. split; [reflexivity|now right].
  Qed.

  Lemma drop_pos k h l a e b t v ttl : consistent h l -> drop_entry k l = a ++ e :: b ->
    (forall e', In e' a -> In (en_key e') (set_since (en_key e) (h ++ [OSet t k v ttl]))) /\ en_key e <> k.
  Proof.
    intros [N Va P] E.
    assert (NK : en_key e <> k).
    { intros EK. assert (I : In e (drop_entry k l)) by (rewrite E; apply in_app_iff; right; now left).
      apply filter_In in I. destruct I as [_ I]. rewrite EK, String.eqb_refl in I. discriminate. }
    split; [|exact NK]. intros e' I.
    assert (F : exists a' b', l = a' ++ e :: b' /\ In e' a').
    { clear P Va N NK. revert a E I. unfold drop_entry. induction l as [|x l0 IH]; intros a E I; [destruct a; discriminate|].
      cbn [filter] in E. destruct (negb _).
      + destruct a as [|y a]; [destruct I|]. cbn in E. injection E as <- E.
        destruct I as [-> | I].
        * assert (In e l0) as J by (match type of E with ?X = _ => assert (In e X) as J by (rewrite E; apply in_app_iff; right; now left) end; now apply filter_In in J).
          apply in_split in J. destruct J as (a' & b' & ->). exists (e' :: a'), b'. split; [reflexivity|now left].
        * destruct (IH a E I) as (a' & b' & -> & I'). exists (x :: a'), b'. split; [reflexivity|now right].
      + destruct (IH a E I) as (a' & b' & -> & I'). exists (x :: a'), b'. split; [reflexivity|now right]. }
    destruct F as (a' & b' & E' & I'). rewrite set_since_snoc.
    destruct (String.eqb k (en_key e)) eqn:EK; [apply String.eqb_eq in EK; congruence|].
    pose proof (P a' e b' E' e' I') as J. destruct (mem _ _); [exact J|now right].
  Qed.

  Lemma consistent_set h l t k v ttl : consistent h l -> consistent (h ++ [OSet t k v ttl]) (mem_set t k v ttl l).
  Proof.
    intros C. pose proof C as [N Va P]. unfold mem_set.
    destruct (negb (ttl =? -1)%Z && (ttl <? 1)%Z) eqn:ET.
    - constructor.
      + now apply filter_nodup.
      + intros k0 e H. assert (k <> k0) by (intros ->; rewrite find_drop_same in H; discriminate).
        rewrite find_drop_other in H by congruence. destruct (Va k0 e H) as (t0 & ttl0 & E & H1 & H2).
        exists t0, ttl0. rewrite last_set_snoc. apply String.eqb_neq in H0. rewrite H0. auto.
      + intros a e b E. exact (proj1 (drop_pos k h l a e b t v ttl C E)).
    - set (x := Entry k v (mem_exp t ttl)).
      assert (C1 : consistent (h ++ [OSet t k v ttl]) (x :: drop_entry k l)).
      { constructor.
        - cbn [map]. constructor; [|now apply filter_nodup]. apply find_none. apply find_drop_same.
        - intros k0 e H. unfold find_entry in H. cbn [find] in H. change (en_key x) with k in H. rewrite last_set_snoc.
          destruct (String.eqb k k0) eqn:EK.
          + injection H as <-. exists t, ttl. unfold storing. rewrite ET. auto.
          + change (find_entry k0 (drop_entry k l) = Some e) in H. apply String.eqb_neq in EK. rewrite find_drop_other in H by congruence.
            destruct (Va k0 e H) as (t0 & ttl0 & E & H1 & H2). exists t0, ttl0. auto.
        - intros a e b E e' I. destruct a as [|y a]; [destruct I|]. cbn in E. injection E as Ey E. subst y.
          destruct (drop_pos k h l a e b t v ttl C E) as [D NK]. destruct I as [<- | I]; [|now apply D].
          change (en_key x) with k. rewrite set_since_snoc. destruct (String.eqb k (en_key e)) eqn:EK; [apply String.eqb_eq in EK; congruence|].
          destruct (mem k _) eqn:EM; [now apply mem_In|now left]. }
      destruct (N.ltb _ _); [|exact C1]. destruct C1 as [N1 V1 P1].
      assert (SP : exists z, x :: drop_entry k l = removelast (x :: drop_entry k l) ++ [z]).
      { exists (last (x :: drop_entry k l) x). apply app_removelast_last. discriminate. }
      destruct SP as [z SP]. set (l' := removelast _) in *. constructor.
      + rewrite SP, map_app in N1. apply NoDup_remove_1 in N1. now rewrite app_nil_r in N1.
      + intros k0 e H. apply V1. rewrite SP. unfold find_entry in *. clear - H. induction l' as [|y l' IH]; [discriminate|].
        cbn [find app] in *. destruct (String.eqb (en_key y) k0); [exact H|now apply IH].
      + intros a e b E e' I. apply (P1 a e (b ++ [z])); [|exact I]. rewrite SP, E, <- app_assoc. reflexivity.
  Qed.

  Definition entries (c : cache V) : list (entry V) := match c with Memory l => l | Redis l => l end.

  Lemma after_snoc h o (c : cache V) : after_ops (h ++ [o]) c = apply_op (after_ops h c) o.
  Proof. unfold after_ops. now rewrite fold_left_app. Qed.

  Lemma filter_true (l : list (entry V)) : filter (fun _ => true) l = l.
  Proof. induction l as [|x l IH]; cbn; [reflexivity|now rewrite IH]. Qed.

  Lemma consistent_after h : exists l, after_ops h (Memory []) = Memory l /\ consistent h l.
  Proof.
    induction h as [|o h IH] using rev_ind.
    { exists []. split; [reflexivity|]. constructor; [constructor|discriminate|]. intros a e b E. destruct a; discriminate. }
    destruct IH as (l & E & C). rewrite after_snoc, E. destruct o as [t k v ttl|t k|t which]; cbn [apply_op cache_set cache_get cache_sweep].
    - eexists. split; [reflexivity|]. now apply consistent_set.
    - unfold mem_get. destruct (find_entry k l) as [e|] eqn:F.
      + destruct (expired t e); cbn [snd].
        * eexists. split; [reflexivity|]. apply consistent_filter; [exact C|discriminate].
        * eexists. split; [reflexivity|]. rewrite <- (filter_true l). apply consistent_filter; [exact C|discriminate].
      + cbn [snd]. eexists. split; [reflexivity|]. rewrite <- (filter_true l). apply consistent_filter; [exact C|discriminate].
    - eexists. split; [reflexivity|]. apply consistent_filter; [exact C|discriminate].
  Qed.

  Lemma last_set_in k h t v ttl : last_set k h = Some (t, v, ttl) -> In (OSet t k v ttl) h.
  Proof.
    induction h as [|o h IH] using rev_ind; [discriminate|]. rewrite last_set_snoc, in_app_iff. destruct o as [t' k' v' ttl'|t' k'|t' w]; auto.
    destruct (String.eqb k' k) eqn:E; [|auto]. apply String.eqb_eq in E. intros [= -> -> ->]. subst. right. now left.
  Qed.

  Lemma mem_exp_spec t ttl : (0 < t)%Z -> (t + ttl < 2 ^ 63)%Z -> storing ttl = true ->
    (ttl = (-1)%Z /\ mem_exp t ttl = None) \/ ((1 <= ttl)%Z /\ mem_exp t ttl = Some (t + ttl)%Z).
  Proof.
    intros H1 H2 H3. unfold storing in H3. unfold mem_exp. destruct (Z.eqb_spec ttl (-1)) as [-> | N].
    - left. split; reflexivity.
    - right. cbn [negb andb] in H3. apply negb_true_iff, Z.ltb_ge in H3. split; [exact H3|].
      assert (W : Refresher.wrap64 (t + ttl) = (t + ttl)%Z) by (unfold Refresher.wrap64; rewrite Z.mod_small; lia).
      rewrite W. destruct (Z.ltb_spec 0 (t + ttl)); [reflexivity|lia].
  Qed.

  (** Whatever Get returns was set last, and is live. *)
  Theorem memory_sound h now k v :
    in_range h -> fst (cache_get now k (after_ops h (Memory []))) = Some v ->
    exists t ttl, last_set k h = Some (t, v, ttl) /\ live t ttl now.
  Proof.
    intros R H. destruct (consistent_after h) as (l & E & C). rewrite E in H. cbn [cache_get] in H. unfold mem_get in H.
    destruct (find_entry k l) as [e|] eqn:F; [|discriminate].
    destruct (expired now e) eqn:X; cbn [fst] in H; [discriminate|]. injection H as <-.
    destruct (co_val _ _ C k e F) as (t & ttl & L & S & X'). exists t, ttl. split; [exact L|].
    destruct (R _ _ _ _ (last_set_in _ _ _ _ _ L)) as [R1 R2]. unfold expired in X. rewrite X' in X.
    destruct (mem_exp_spec t ttl R1 R2 S) as [[-> E'] | [H1 E']]; [now left|]. rewrite E' in X. right. split; [exact H1|].
    now apply Z.ltb_ge.
  Qed.

  Lemma ordered_snoc h o now : ordered (h ++ [o]) now -> ordered h (op_time o) /\ (op_time o <= now)%Z.
  Proof.
    induction h as [|x h IH]; cbn [app ordered].
    - intros (_ & H & _). split; [exact I|exact H].
    - intros (H1 & H2 & H3). destruct (IH H3) as [I1 I2]. split; [|exact I2]. split; [|split; [|exact I1]].
      + intros o' J. apply H1, in_app_iff. now left.
      + apply H1, in_app_iff. right. now left.
  Qed.

  Lemma in_range_snoc h o : in_range (h ++ [o]) -> in_range h.
  Proof. intros R t k v ttl I. apply (R t k v ttl), in_app_iff. now left. Qed.

  Lemma live_mono t ttl now now' : live t ttl now' -> (now <= now')%Z -> live t ttl now.
  Proof. intros [H | [H1 H2]] L; [now left|right; lia]. Qed.

  Lemma live_storing t ttl now : live t ttl now -> storing ttl = true.
  Proof. unfold storing. intros [-> | [H _]]; [reflexivity|]. apply negb_true_iff, andb_false_iff. right. now apply Z.ltb_ge. Qed.

  (** A live value set last is found, unless too many others have been set since. *)
  Lemma memory_found h : forall now k t v ttl l, ordered h now -> in_range h ->
    (N.of_nat (List.length (set_since k h)) < max_size)%N ->
    last_set k h = Some (t, v, ttl) -> live t ttl now -> after_ops h (Memory []) = Memory l ->
    exists e, find_entry k l = Some e.
  Proof.
    induction h as [|o h IH] using rev_ind; [discriminate|].
    intros now k t v ttl l O R B L LV E.
    destruct (consistent_after h) as (l0 & E0 & C). rewrite after_snoc, E0 in E.
    destruct (ordered_snoc _ _ _ O) as [O1 O2]. pose proof (in_range_snoc _ _ R) as R1.
    rewrite last_set_snoc in L. rewrite set_since_snoc in B.
    destruct o as [t' k' v' ttl'|t' k'|t' which]; cbn [apply_op cache_set cache_get cache_sweep op_time] in *.
    - injection E as <-. destruct (String.eqb k' k) eqn:EK.
      + apply String.eqb_eq in EK. subst k'. injection L as -> -> ->. unfold mem_set.
        pose proof (live_storing _ _ _ LV) as S. unfold storing in S. apply negb_true_iff in S. rewrite S.
        set (x := Entry k v (mem_exp t ttl)).
        assert (F : forall r, find_entry k (x :: r) = Some x) by (intros r; unfold find_entry; cbn [find]; change (en_key x) with k; now rewrite String.eqb_refl).
        destruct (N.ltb _ _) eqn:EN; [|exists x; apply F].
        destruct (drop_entry k l0) as [|y r] eqn:ED; [vm_compute in EN; discriminate|].
        exists x. change (removelast (x :: y :: r)) with (x :: removelast (y :: r)). apply F.
      + assert (B0 : (N.of_nat (List.length (set_since k h)) < max_size)%N).
        { destruct (mem k' (set_since k h)); [exact B|]. cbn [List.length] in B. lia. }
        destruct (IH t' k t v ttl l0 O1 R1 B0 L (live_mono _ _ _ _ LV O2) E0) as [e F].
        apply String.eqb_neq in EK.
        assert (FD : find_entry k (drop_entry k' l0) = Some e) by (rewrite find_drop_other; auto).
        unfold mem_set. destruct (negb _ && _) eqn:ET; [exists e; exact FD|].
        set (x := Entry k' v' (mem_exp t' ttl')).
        assert (FX : find_entry k (x :: drop_entry k' l0) = Some e).
        { unfold find_entry. cbn [find]. change (en_key x) with k'. apply String.eqb_neq in EK. now rewrite EK. }
        destruct (N.ltb max_size _) eqn:EN; [|exists e; exact FX].
        pose proof (consistent_set h l0 t' k' v' ttl' C) as C'.
        destruct (find_entry k (removelast (x :: drop_entry k' l0))) as [e'|] eqn:FR; [now exists e'|]. exfalso.
        assert (SP : exists z, x :: drop_entry k' l0 = removelast (x :: drop_entry k' l0) ++ [z]).
        { exists (last (x :: drop_entry k' l0) x). apply app_removelast_last. discriminate. }
        destruct SP as [z SP]. set (l' := removelast _) in *.
        assert (EZ : en_key z = k).
        { rewrite SP in FX. apply find_some in FX. destruct FX as [IX KX]. apply in_app_iff in IX. destruct IX as [IX | [-> | []]]; [|exact KX].
          apply find_none in FR. elim FR. rewrite <- KX. now apply in_map. }
        assert (LN : (max_size <= N.of_nat (List.length l'))%N).
        { apply N.ltb_lt in EN. rewrite SP, app_length in EN. cbn [List.length] in EN. lia. }
        assert (SUB : incl (map en_key l') (set_since k (h ++ [OSet t' k' v' ttl']))).
        { intros q I. apply in_map_iff in I. destruct I as (e' & <- & I).
          destruct l' as [|y l'']; [destruct I|]. cbn in SP. injection SP as SPx SP. subst y.
          destruct (drop_pos k' h l0 l'' z [] t' v' ttl' C SP) as [D NK]. rewrite EZ in D, NK.
          destruct I as [<- | I]; [|now apply D]. change (en_key x) with k'. rewrite set_since_snoc.
          apply String.eqb_neq in EK. rewrite EK. destruct (mem k' _) eqn:EM; [now apply mem_In|now left]. }
        assert (ND : NoDup (map en_key l')).
        { assert (N1 : NoDup (map en_key (x :: drop_entry k' l0))).
          { cbn [map]. constructor; [apply find_none, find_drop_same|]. apply filter_nodup. apply (co_nodup _ _ C). }
          rewrite SP, map_app in N1. apply NoDup_remove_1 in N1. now rewrite app_nil_r in N1. }
        pose proof (NoDup_incl_length ND SUB) as LE. rewrite map_length in LE.
        rewrite set_since_snoc in LE. apply String.eqb_neq in EK. rewrite EK in LE. lia.
    - unfold mem_get in E.
      destruct (IH t' k t v ttl l0 O1 R1 B L (live_mono _ _ _ _ LV O2) E0) as [e F].
      assert (NX : expired t' e = false).
      { destruct (co_val _ _ C k e F) as (t1 & ttl1 & L1 & S & X). rewrite L in L1. injection L1 as <- -> <-.
        destruct (R1 _ _ _ _ (last_set_in _ _ _ _ _ L)) as [R2 R3]. unfold expired. rewrite X.
        destruct (mem_exp_spec t ttl R2 R3 S) as [[-> E'] | [H1 E']]; rewrite E'; [reflexivity|].
        apply Z.ltb_ge. destruct LV as [LV | [_ LV]]; lia. }
      destruct (find_entry k' l0) as [e'|] eqn:F'; [|injection E as <-; now exists e].
      destruct (expired t' e') eqn:X'; cbn [snd] in E; injection E as <-; [|now exists e].
      exists e. rewrite find_drop_other; [exact F|]. intros ->. rewrite F in F'. injection F' as <-. congruence.
    - injection E as <-.
      destruct (IH t' k t v ttl l0 O1 R1 B L (live_mono _ _ _ _ LV O2) E0) as [e F].
      assert (NX : forall x, In x l0 -> en_key x = k -> expired t' x = false).
      { intros x I K. assert (x = e) as ->.
        { pose proof (co_nodup _ _ C) as ND. clear - I K F ND. apply find_some in F. destruct F as [I' K'].
          induction l0 as [|y l0 IH]; [destruct I|]. cbn [map] in ND. inversion ND as [|? ? N1 N2]; subst.
          destruct I as [-> | I], I' as [-> | I']; auto.
          - elim N1. apply in_map_iff. exists e. auto.
          - elim N1. apply in_map_iff. exists x. auto. }
        destruct (co_val _ _ C k e F) as (t1 & ttl1 & L1 & S & X). rewrite L in L1. injection L1 as <- -> <-.
        destruct (R1 _ _ _ _ (last_set_in _ _ _ _ _ L)) as [R2 R3]. unfold expired. rewrite X.
        destruct (mem_exp_spec t ttl R2 R3 S) as [[-> E'] | [H1 E']]; rewrite E'; [reflexivity|].
        apply Z.ltb_ge. destruct LV as [LV | [_ LV]]; lia. }
      exists e. rewrite find_filter; [exact F|]. intros x I K. rewrite (NX x I K), andb_false_r. reflexivity.
  Qed.

  Theorem memory_complete h now k t v ttl :
    ordered h now -> in_range h -> (N.of_nat (List.length (set_since k h)) < max_size)%N ->
    last_set k h = Some (t, v, ttl) -> live t ttl now ->
    fst (cache_get now k (after_ops h (Memory []))) = Some v.
  Proof.
    intros O R B L LV. destruct (consistent_after h) as (l & E & C).
    destruct (memory_found h now k t v ttl l O R B L LV E) as [e F].
    rewrite E. cbn [cache_get]. unfold mem_get. rewrite F.
    destruct (co_val _ _ C k e F) as (t1 & ttl1 & L1 & S & X). rewrite L in L1. injection L1 as <- -> <-.
    destruct (R _ _ _ _ (last_set_in _ _ _ _ _ L)) as [R2 R3]. unfold expired. rewrite X.
    destruct (mem_exp_spec t ttl R2 R3 S) as [[-> E'] | [H1 E']]; rewrite E'; [reflexivity|].
    destruct (Z.ltb_spec (t + ttl) now); [|reflexivity]. destruct LV as [LV | [_ LV]]; lia.
  Qed.
End Memory.

(** ** The statement cache *)

Definition is_memory (c : cache cached) : bool := match c with Memory _ => true | Redis _ => false end.
Definition red_exp (now : time) (ttl : Z) : option Z := Some (now / ms + (if Z.ltb ttl ms then 1 else ttl / ms))%Z.
Definition exp_ok (memory : bool) (t2 : time) (ttl : Z) (e : entry cached) : Prop :=
  if memory then storing ttl = true /\ en_exp e = mem_exp t2 ttl else (0 < ttl)%Z -> en_exp e = red_exp t2 ttl.

Lemma filter_incl {A} (f : A -> bool) l x : In x (filter f l) -> In x l.
Proof. intros H. now apply filter_In in H. Qed.

Lemma set_entries now k v ttl (c : cache cached) e : In e (entries (cache_set now k v ttl c)) ->
  (In e (entries c) /\ en_key e <> k) \/
  (en_key e = k /\ en_val e = v /\ exp_ok (is_memory c) now ttl e).
Proof.
  destruct c as [l|l]; cbn [cache_set entries is_memory].
  - unfold mem_set. destruct (negb _ && _) eqn:ET.
    + intros I. apply filter_In in I. destruct I as [I K]. left. split; [exact I|]. now apply negb_true_iff, String.eqb_neq in K.
    + set (x := Entry k v (mem_exp now ttl)). intros I.
      assert (J : In e (x :: drop_entry k l)).
      { destruct (N.ltb _ _); [|exact I]. rewrite (app_removelast_last x) by discriminate. apply in_app_iff. now left. }
      destruct J as [<- | J].
      * right. repeat split. unfold storing. now rewrite ET.
      * apply filter_In in J. destruct J as [J K]. left. split; [exact J|]. now apply negb_true_iff, String.eqb_neq in K.
  - unfold red_set. intros [<- | J].
    + right. cbn [en_key en_val exp_ok en_exp]. repeat split. intros P. apply Z.ltb_lt in P. now rewrite P.
    + apply filter_In in J. destruct J as [J K]. left. split; [exact J|]. now apply negb_true_iff, String.eqb_neq in K.
Qed.

Lemma set_memory now k v ttl (c : cache cached) : is_memory (cache_set now k v ttl c) = is_memory c.
Proof. now destruct c. Qed.
Lemma get_memory now k (c : cache cached) : is_memory (snd (cache_get now k c)) = is_memory c.
Proof. destruct c as [l|l]; cbn; [|reflexivity]. now destruct (mem_get now k l). Qed.
Lemma get_entries now k (c : cache cached) e : In e (entries (snd (cache_get now k c))) -> In e (entries c).
Proof.
  destruct c as [l|l]; cbn [cache_get]; [|now cbn]. unfold mem_get. destruct (find_entry k l) as [x|]; [|now cbn].
  destruct (expired now x); cbn [snd entries]; [apply filter_incl|easy].
Qed.
Lemma stmt_get_snd now sub iss (c : cache cached) : snd (stmt_cache_get now sub iss c) = snd (cache_get now (stmt_key sub iss) c).
Proof. unfold stmt_cache_get. destruct (cache_get _ _ _) as [[[]|] c']; reflexivity. Qed.

Lemma use_memory c u : is_memory (apply_use c u) = is_memory c.
Proof.
  destruct u as [now t1 t2 sub iss answer|t1 t2 sub iss answer|now ss sk v ttl|now which]; cbn [apply_use].
  - unfold get_statement. pose proof (stmt_get_snd now sub iss c) as E. pose proof (get_memory now (stmt_key sub iss) c) as M.
    rewrite <- E in M. destruct (stmt_cache_get now sub iss c) as [[s|] c']; cbn [snd] in *; [exact M|].
    destruct answer; cbn [obtain]; unfold stmt_cache_set; [rewrite set_memory|]; exact M.
  - destruct answer; cbn [obtain]; unfold stmt_cache_set; [apply set_memory|reflexivity].
  - apply set_memory.
  - now destruct c.
Qed.

Lemma use_entries c u e : In e (entries (apply_use c u)) ->
  (In e (entries c) /\ forall t1 t2 sub iss s, u = URefresh t1 t2 sub iss (Some s) -> en_key e <> stmt_key sub iss) \/
  (exists sub iss s t1 t2, obtained u sub iss s t1 t2 /\ en_key e = stmt_key sub iss /\ en_val e = CStmt s /\
     exp_ok (is_memory c) t2 (until (st_exp s) t1) e) \/
  (exists now ss sk v ttl, u = UOther now ss sk v ttl /\ en_key e = cache_key ss sk).
Proof.
  destruct u as [now t1 t2 sub iss answer|t1 t2 sub iss answer|now ss sk v ttl|now which]; cbn [apply_use].
  - unfold get_statement. pose proof (stmt_get_snd now sub iss c) as E. pose proof (get_memory now (stmt_key sub iss) c) as M.
    pose proof (get_entries now (stmt_key sub iss) c e) as GE. rewrite <- E in M, GE.
    destruct (stmt_cache_get now sub iss c) as [[s|] c']; cbn [snd] in *.
    + intros I. left. split; [now apply GE|discriminate].
    + destruct answer as [s|]; cbn [obtain].
      * unfold stmt_cache_set. intros I. apply set_entries in I. rewrite M in I. destruct I as [[I K] | (K & Va & X)].
        -- left. split; [now apply GE|discriminate].
        -- right. left. exists sub, iss, s, t1, t2. repeat split; auto. left. now exists now.
      * intros I. left. split; [now apply GE|discriminate].
  - destruct answer as [s|]; cbn [obtain].
    + unfold stmt_cache_set. intros I. apply set_entries in I. destruct I as [[I K] | (K & Va & X)].
      * left. split; [exact I|]. intros t1' t2' sub' iss' s' [= -> -> -> -> ->]. exact K.
      * right. left. exists sub, iss, s, t1, t2. repeat split; auto. now right.
    + intros I. left. split; [exact I|discriminate].
  - intros I. apply set_entries in I. destruct I as [[I K] | (K & Va & X)].
    + left. split; [exact I|discriminate].
    + right. right. exists now, ss, sk, v, ttl. auto.
  - destruct c as [l|l]; cbn [cache_sweep entries]; intros I; apply filter_incl in I; left; (split; [exact I|discriminate]).
Qed.

Lemma uses_snoc h u c : after_uses (h ++ [u]) c = apply_use (after_uses h c) u.
Proof. unfold after_uses. now rewrite fold_left_app. Qed.

Lemma uses_memory h c : is_memory (after_uses h c) = is_memory c.
Proof. induction h as [|u h IH] using rev_ind; [reflexivity|]. now rewrite uses_snoc, use_memory. Qed.

Lemma use_origin h : forall c0, entries c0 = [] -> (forall u, In u h -> proper u) -> forall e sub iss, In e (entries (after_uses h c0)) -> en_key e = stmt_key sub iss ->
  exists h1 u h2 s t1 t2, h = h1 ++ u :: h2 /\ obtained u sub iss s t1 t2 /\ en_val e = CStmt s /\
    exp_ok (is_memory c0) t2 (until (st_exp s) t1) e /\
    (forall t1' t2' s', ~ In (URefresh t1' t2' sub iss (Some s')) h2).
Proof.
  induction h as [|u h IH] using rev_ind; intros c0 E0 P e sub iss I K.
  { cbn in I. rewrite E0 in I. destruct I. }
  rewrite uses_snoc in I. apply use_entries in I. destruct I as [[I N] | [X | X]].
  - destruct (IH c0 E0 (fun x J => P x (in_or_app _ _ _ (or_introl J))) e sub iss I K) as (h1 & u0 & h2 & s & t1 & t2 & -> & O & Va & X & R).
    exists h1, u0, (h2 ++ [u]), s, t1, t2. rewrite <- app_assoc. repeat split; auto.
    intros t1' t2' s' J. apply in_app_iff in J. destruct J as [J | [-> | []]]; [exact (R _ _ _ J)|].
    now elim (N t1' t2' sub iss s' eq_refl).
  - destruct X as (sub' & iss' & s & t1 & t2 & O & K' & Va & X). rewrite K in K'. apply stmt_keys_injective in K'. destruct K' as [<- <-].
    exists h, u, [], s, t1, t2. rewrite uses_memory in X. repeat split; auto.
  - destruct X as (now & ss & sk & v & ttl & -> & K'). exfalso. rewrite K in K'.
    assert (PU : proper (UOther now ss sk v ttl)) by (apply P, in_app_iff; right; now left).
    destruct PU as [P1 P2]. symmetry in K'. revert K'. now apply stmt_keys_apart.
Qed.

Lemma until_small s t1 t2 : (0 < t1)%Z -> (t1 <= t2)%Z -> (st_exp s + (t2 - t1) < 2 ^ 63)%Z -> (0 < until (st_exp s) t1)%Z ->
  until (st_exp s) t1 = (st_exp s - t1)%Z.
Proof. unfold until, sat. lia. Qed.

Lemma stmt_get_fst now sub iss (c : cache cached) s : fst (stmt_cache_get now sub iss c) = Some s ->
  exists s0, fst (cache_get now (stmt_key sub iss) c) = Some (CStmt s0) /\ s = stmt_msgpack s0.
Proof.
  unfold stmt_cache_get. destruct (cache_get _ _ _) as [[[s0| | |]|] c']; cbn [fst]; try discriminate. intros [= <-]. now exists s0.
Qed.

Theorem memory_served h now sub iss s :
  (forall u, In u h -> proper u) -> uses_in_range h ->
  (forall u sub iss s t1 t2, In u h -> obtained u sub iss s t1 t2 -> until (st_exp s) t1 <> (-1)%Z) ->
  fst (stmt_cache_get now sub iss (after_uses h (Memory []))) = Some s ->
  exists h1 u h2 s0 t1 t2, h = h1 ++ u :: h2 /\ obtained u sub iss s0 t1 t2 /\ s = stmt_msgpack s0 /\
    (forall t1' t2' s', ~ In (URefresh t1' t2' sub iss (Some s')) h2) /\
    (now <= st_exp s + (t2 - t1))%Z.
Proof.
  intros P [R _] NE H. apply stmt_get_fst in H. destruct H as (s0 & H & ->).
  pose proof (uses_memory h (Memory [])) as M. pose proof (use_origin h (Memory []) eq_refl P) as OR.
  destruct (after_uses h (Memory [])) as [l|l]; [|discriminate M]. cbn [cache_get entries is_memory] in *. unfold mem_get in H.
  destruct (find_entry _ l) as [e|] eqn:F; [|discriminate]. destruct (expired now e) eqn:X; cbn [fst] in H; [discriminate|].
  injection H as H. apply find_some in F. destruct F as [I K].
  destruct (OR e sub iss I K) as (h1 & u & h2 & s1 & t1 & t2 & -> & O & Va & [S EX] & RF). rewrite H in Va. injection Va as <-.
  exists h1, u, h2, s0, t1, t2. repeat split; auto. change (st_exp (stmt_msgpack s0)) with (st_exp s0).
  assert (IU : In u (h1 ++ u :: h2)) by (apply in_app_iff; right; now left).
  destruct (R u sub iss s0 t1 t2 IU O) as (R1 & R2 & R3). pose proof (NE u sub iss s0 t1 t2 IU O) as N1.
  assert (PT : (0 < until (st_exp s0) t1)%Z).
  { unfold storing in S. apply negb_true_iff, andb_false_iff in S. destruct S as [S|S].
    - apply negb_false_iff, Z.eqb_eq in S. contradiction.
    - apply Z.ltb_ge in S. lia. }
  pose proof (until_small s0 t1 t2 R1 R2 R3 PT) as U. unfold expired in X. rewrite EX in X.
  destruct (mem_exp_spec t2 (until (st_exp s0) t1)) as [[E' _] | [_ E']]; try lia; auto. rewrite E', U in X.
  apply Z.ltb_ge in X. lia.
Qed.

Theorem redis_served h now sub iss s :
  (forall u, In u h -> proper u) -> uses_in_range h ->
  (forall u sub iss s t1 t2, In u h -> obtained u sub iss s t1 t2 -> (t1 < st_exp s)%Z) ->
  fst (stmt_cache_get now sub iss (after_uses h (Redis []))) = Some s ->
  exists h1 u h2 s0 t1 t2, h = h1 ++ u :: h2 /\ obtained u sub iss s0 t1 t2 /\ s = stmt_msgpack s0 /\
    (forall t1' t2' s', ~ In (URefresh t1' t2' sub iss (Some s')) h2) /\
    (now < st_exp s + (t2 - t1) + 2 * ms)%Z.
Proof.
  intros P [R _] NE H. apply stmt_get_fst in H. destruct H as (s0 & H & ->).
  pose proof (uses_memory h (Redis [])) as M. pose proof (use_origin h (Redis []) eq_refl P) as OR.
  destruct (after_uses h (Redis [])) as [l|l]; [discriminate M|]. cbn [cache_get entries is_memory fst] in *. unfold red_find in H.
  destruct (find_entry _ l) as [e|] eqn:F; [|discriminate]. destruct (red_expired now e) eqn:X; cbn [option_map] in H; [discriminate|].
  injection H as H. apply find_some in F. destruct F as [I K].
  destruct (OR e sub iss I K) as (h1 & u & h2 & s1 & t1 & t2 & -> & O & Va & EX & RF). rewrite H in Va. injection Va as <-.
  exists h1, u, h2, s0, t1, t2. repeat split; auto. change (st_exp (stmt_msgpack s0)) with (st_exp s0).
  assert (IU : In u (h1 ++ u :: h2)) by (apply in_app_iff; right; now left).
  destruct (R u sub iss s0 t1 t2 IU O) as (R1 & R2 & R3). pose proof (NE u sub iss s0 t1 t2 IU O) as N1.
  assert (PT : (0 < until (st_exp s0) t1)%Z) by (unfold until, sat; lia).
  pose proof (until_small s0 t1 t2 R1 R2 R3 PT) as U. cbn [exp_ok] in EX. specialize (EX PT). rewrite U in EX. unfold red_expired in X. rewrite EX in X.
  unfold red_exp in X. apply Z.ltb_ge in X.
  pose proof (Z.div_mod now ms). pose proof (Z.mod_pos_bound now ms). pose proof (Z.mul_div_le t2 ms).
  pose proof (Z.mul_div_le (st_exp s0 - t1) ms). unfold ms in *.
  destruct (Z.ltb_spec (st_exp s0 - t1) 1000000); lia.
Qed.

(** A statement obtained after its expiration stays in redis. *)
Theorem redis_forever c sub iss s t1 t2 now :
  (st_exp s < t1 - 1)%Z -> is_memory c = false ->
  fst (stmt_cache_get now sub iss (stmt_cache_set t1 t2 sub iss s c)) = Some (stmt_msgpack s).
Proof.
  intros X M. destruct c as [l|l]; [discriminate|]. unfold stmt_cache_get, stmt_cache_set. cbn [cache_set cache_get].
  assert (U : (until (st_exp s) t1 < -1)%Z) by (unfold until, sat; lia).
  unfold red_set, red_find. destruct (Z.ltb_spec 0 (until (st_exp s) t1)); [lia|].
  destruct (Z.eqb_spec (until (st_exp s) t1) (-1)); [lia|]. unfold find_entry. cbn [find en_key]. rewrite String.eqb_refl. reflexivity.
Qed.

(** Otherwise the statement returned is the one just obtained. *)
Theorem get_statement_fresh now t1 t2 sub iss answer c s :
  fst (get_statement now t1 t2 sub iss answer c) = Some (s, false) -> answer = Some s.
Proof.
  unfold get_statement. destruct (stmt_cache_get _ _ _ _) as [[x|] c']; cbn [fst]; [discriminate|].
  destruct answer; cbn; [|discriminate]. now intros [= ->].
Qed.
Theorem get_statement_cached now t1 t2 sub iss answer c s :
  fst (get_statement now t1 t2 sub iss answer c) = Some (s, true) -> fst (stmt_cache_get now sub iss c) = Some s.
Proof.
  unfold get_statement. destruct (stmt_cache_get _ _ _ _) as [[x|] c']; cbn [fst]; [now intros [= ->]|].
  destruct answer; cbn; discriminate.
Qed.

(** Statements served for (sub, iss) were obtained for (sub, iss), whichever cache is used. *)
Theorem served_own h c0 now sub iss s :
  entries c0 = [] -> (forall u, In u h -> proper u) ->
  fst (stmt_cache_get now sub iss (after_uses h c0)) = Some s ->
  exists u s0 t1 t2, In u h /\ obtained u sub iss s0 t1 t2 /\ s = stmt_msgpack s0.
Proof.
  intros E0 P H. apply stmt_get_fst in H. destruct H as (s0 & H & ->).
  assert (I : exists e, In e (entries (after_uses h c0)) /\ en_key e = stmt_key sub iss /\ en_val e = CStmt s0).
  { destruct (after_uses h c0) as [l|l]; cbn [cache_get entries fst] in *.
    - unfold mem_get in H. destruct (find_entry _ l) as [e|] eqn:F; [|discriminate]. destruct (expired now e); cbn [fst] in H; [discriminate|].
      injection H as H. apply find_some in F. exists e. tauto.
    - unfold red_find in H. destruct (find_entry _ l) as [e|] eqn:F; [|discriminate]. destruct (red_expired now e); cbn [option_map] in H; [discriminate|].
      injection H as H. apply find_some in F. exists e. tauto. }
  destruct I as (e & I & K & Va).
  destruct (use_origin h c0 E0 P e sub iss I K) as (h1 & u & h2 & s1 & t1 & t2 & -> & O & Va' & _). rewrite Va in Va'. injection Va' as <-.
  exists u, s0, t1, t2. repeat split; auto. apply in_app_iff. right. now left.
Qed.

(** ** Keys of arbitrary subsystems *)
Lemma no_colon_iff s : ~ In ":"%char (list_ascii_of_string s) <-> no_colon s.
Proof. induction s as [|c s IH]; cbn; [tauto|]. rewrite <- IH. split; intros H; intuition congruence. Qed.

Theorem keys_injective_gen s k s' k' :
  ~ In ":"%char (list_ascii_of_string s) -> ~ In ":"%char (list_ascii_of_string s') ->
  cache_key s k = cache_key s' k' -> s = s' /\ k = k'.
Proof. intros H H' E. apply no_colon_iff in H, H'. exact (colon_split _ _ _ _ H H' E). Qed.

Theorem get_statement_result now t1 t2 sub iss answer c s b :
  fst (get_statement now t1 t2 sub iss answer c) = Some (s, b) ->
  if b then fst (stmt_cache_get now sub iss c) = Some s else answer = Some s.
Proof.
  destruct b; intros H; [now apply get_statement_cached in H|now apply get_statement_fresh in H].
Qed.
