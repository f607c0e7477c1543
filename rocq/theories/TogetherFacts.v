(** Proofs about calls that run at the same time. *)
From Coq Require Import QArith Lia.
From Verif Require Import Base GoVal Policy Schema Metadata Chain Resolver TrustMark Refresher FloatTime Cache SpecCache CacheFacts Together SpecTogether.
Local Open Scope nat_scope.
Local Open Scope string_scope.

Lemma put_nth {A} i (x : A) : forall l k y, nth_error (put i x l) k = Some y -> (k = i /\ y = x) \/ (k <> i /\ nth_error l k = Some y).
Proof.
  induction i as [|i IH]; intros [|z l] [|k] y H; cbn [put nth_error] in *; try discriminate.
  - injection H as <-. now left.
  - now right.
  - right. now split.
  - apply IH in H. destruct H as [[-> ->]|[N H]]; [now left|right; split; auto].
Qed.
Lemma put_in {A} i (x : A) l y : In y (put i x l) -> y = x \/ In y l.
Proof.
  intros H. apply In_nth_error in H. destruct H as [k H]. apply put_nth in H.
  destruct H as [[_ ->]|[_ H]]; auto. right. eapply nth_error_In; eauto.
Qed.

Lemma sweep_entries now which (c : cache cached) e : In e (entries (cache_sweep now which c)) -> In e (entries c).
Proof. destruct c; cbn [cache_sweep entries]; apply filter_incl. Qed.
Lemma get_found now k (c : cache cached) v : fst (cache_get now k c) = Some v -> exists e, In e (entries c) /\ en_key e = k /\ en_val e = v.
Proof.
  destruct c as [l|l]; cbn [cache_get entries].
  - unfold mem_get. destruct (find_entry k l) as [e|] eqn:F; [|discriminate]. apply find_some in F.
    destruct (expired now e); cbn [fst]; [discriminate|]. intros [= <-]. exists e. tauto.
  - unfold red_find. destruct (find_entry k l) as [e|] eqn:F; [|discriminate]. apply find_some in F.
    destruct (red_expired now e); cbn [fst option_map]; [discriminate|]. intros [= <-]. exists e. tauto.
Qed.

(** ** What is served comes from the network *)

Definition carried (p : phase) (s : stmt) : Prop :=
  match p with Holding _ x | Storing _ x _ => x = s | _ => False end.
Section Origin.
  Variable P : string -> string -> stmt -> Prop.
  Definition from_net (st : tstate) : Prop :=
    (forall e sub iss, In e (entries (fst st)) -> en_key e = stmt_key sub iss -> exists s, en_val e = CStmt s /\ P sub iss s) /\
    (forall j s, In j (snd st) -> carried (jb_at j) s -> P (jb_sub j) (jb_iss j) s).

  Lemma act_from grace factor net now a st st' o : from_net st ->
    (forall ss sk v ttl, a = Other ss sk v ttl -> In ss subsystem_names /\ ss <> "entity_statement") ->
    (forall sub iss s, net now sub iss = Some s -> P sub iss s) ->
    act_at grace factor net now a st = Some (st', o) ->
    from_net st' /\
    (forall sub iss s, o = Some (Outcome sub iss (Some s)) -> exists s0, P sub iss s0 /\ same_document s0 s).
  Proof.
    destruct st as [c js]. intros [FE FJ] OK NET A. destruct a as [sub iss|i|ss sk v ttl|which]; cbn [act_at fst snd] in *.
    - injection A as <- <-. split; [|discriminate]. split; cbn [fst snd]; auto.
      intros j s I C. apply in_app_iff in I. destruct I as [I|[<-|[]]]; auto. destruct C.
    - destruct (nth_error js i) as [[sub iss p]|] eqn:NJ; [|discriminate]. pose proof (nth_error_In _ _ NJ) as IJ. cbn [jb_sub jb_iss] in A.
      assert (G : forall p' new c', (forall j s, In j new -> ~ carried (jb_at j) s) ->
         (forall s, carried p' s -> P sub iss s) ->
         (forall e sub iss, In e (entries c') -> en_key e = stmt_key sub iss -> exists s, en_val e = CStmt s /\ P sub iss s) ->
         from_net (c', put i (Job sub iss p') js ++ new)%list).
      { intros p' new c' N C E. split; cbn [fst snd]; auto. intros j s I K. apply in_app_iff in I. destruct I as [I|I]; [|destruct (N j s I K)].
        apply put_in in I. destruct I as [->|I]; cbn [jb_sub jb_iss jb_at] in *; auto. }
      destruct p as [|s|back|back s|back s ttl|]; cbn [work] in A.
      + pose proof (stmt_get_snd now sub iss c) as E. pose proof (get_entries now (stmt_key sub iss) c) as GE. rewrite <- E in GE.
        pose proof (stmt_get_fst now sub iss c) as GF.
        destruct (stmt_cache_get now sub iss c) as [[s|] c']; cbn [fst snd] in *; injection A as <- <-.
        * split; [apply G; [intros j s' [<-|[]]; auto|intros s' []|eauto]|].
          intros sub' iss' s' [= <- <- <-]. destruct (GF s eq_refl) as (s0 & F & ->). apply get_found in F.
          destruct F as (e & I & K & V). destruct (FE e sub iss I K) as (s1 & V1 & P1). rewrite V in V1. injection V1 as <-.
          exists s0. split; auto. now right.
        * split; [|discriminate]. apply G; [intros j s' []|intros s' []|eauto].
      + injection A as <- <-. split; [|discriminate]. apply G; [intros j s' []|destruct (refresh_due _ _ _ _); intros s' []|auto].
      + destruct (net now sub iss) as [s|] eqn:N; injection A as <- <-.
        * split; [|discriminate]. apply G; [intros j s' []|intros s' <-; auto|auto].
        * split; [apply G; [intros j s' []|intros s' []|auto]|]. intros sub' iss' s'. destruct back; discriminate.
      + injection A as <- <-. split; [|discriminate]. apply G; [intros j s' []| |auto].
        intros s' <-. apply (FJ (Job sub iss (Holding back s))); cbn; auto.
      + assert (PS : P sub iss s) by (apply (FJ (Job sub iss (Storing back s ttl))); cbn; auto).
        injection A as <- <-. split.
        * apply G; [intros j s' []|intros s' []|]. intros e sub' iss' I K. apply set_entries in I. destruct I as [[I _]|(K' & V & _)]; [eauto|].
          rewrite K in K'. apply stmt_keys_injective in K'. destruct K' as [-> ->]. eauto.
        * intros sub' iss' s'. destruct back; [discriminate|]. intros [= <- <- <-]. exists s. split; auto. now left.
      + injection A as <- <-. split; [|discriminate]. apply G; [intros j s' []|intros s' []|auto].
    - injection A as <- <-. split; [|discriminate]. split; cbn [fst snd]; auto.
      intros e sub iss I K. apply set_entries in I. destruct I as [[I _]|(K' & _)]; [eauto|]. exfalso. rewrite K in K'.
      symmetry in K'. destruct (OK ss sk v ttl eq_refl) as [O1 O2]. revert K'. now apply stmt_keys_apart.
    - injection A as <- <-. split; [|discriminate]. split; cbn [fst snd]; auto.
      intros e sub iss I K. apply sweep_entries in I. eauto.
  Qed.

  Lemma together_from grace factor net : forall acts st st' os, from_net st -> own_keys acts ->
    (forall now a sub iss s, In (now, a) acts -> net now sub iss = Some s -> P sub iss s) ->
    together grace factor net acts st = Some (st', os) ->
    from_net st' /\ forall sub iss s, In (Outcome sub iss (Some s)) os -> exists s0, P sub iss s0 /\ same_document s0 s.
  Proof.
    induction acts as [|[now a] acts IH]; intros st st' os F OK NET R; cbn [together] in R.
    { injection R as <- <-. split; auto. intros sub iss s []. }
    destruct (act_at grace factor net now a st) as [[st1 o]|] eqn:A; [|discriminate].
    destruct (together grace factor net acts st1) as [[st2 os']|] eqn:T; [|discriminate]. injection R as <- <-.
    destruct (act_from _ _ _ _ _ _ _ _ F (fun ss sk v ttl E => OK now ss sk v ttl (or_introl (f_equal (pair now) E))) (fun sub iss s => NET now a sub iss s (or_introl eq_refl)) A) as [F1 O1].
    destruct (IH st1 st2 os' F1 (fun n ss sk v ttl I => OK n ss sk v ttl (or_intror I)) (fun n b sub iss s I => NET n b sub iss s (or_intror I)) T) as [F2 O2].
    split; auto. intros sub iss s I. destruct o as [o|]; [destruct I as [->|I]|]; eauto.
  Qed.
End Origin.

Lemma empty_from P c : entries c = [] -> from_net P (c, []).
Proof. intros E. split; cbn [fst snd]; [rewrite E|]; intros; contradiction. Qed.

Theorem served_by_net grace factor net c acts st os sub iss s : entries c = [] -> own_keys acts ->
  together grace factor net acts (c, []) = Some (st, os) -> In (Outcome sub iss (Some s)) os ->
  exists t a s0, In (t, a) acts /\ net t sub iss = Some s0 /\ same_document s0 s.
Proof.
  intros E OK R I.
  destruct (together_from (fun sub iss s => exists t a, In (t, a) acts /\ net t sub iss = Some s) grace factor net acts (c, []) st os) as [_ O]; auto.
  - now apply empty_from.
  - intros now a sub' iss' s' J N. eauto.
  - destruct (O sub iss s I) as (s0 & (t & a & J & N) & D). exists t, a, s0. auto.
Qed.

(** ** Failures come from the network, too *)

Lemma act_fails grace factor net now a st st' sub iss :
  act_at grace factor net now a st = Some (st', Some (Outcome sub iss None)) -> net now sub iss = None.
Proof.
  destruct st as [c js]. destruct a as [sub' iss'|i|ss sk v ttl|which]; cbn [act_at]; try discriminate.
  destruct (nth_error js i) as [[sub' iss' p]|]; [|discriminate]. cbn [jb_sub jb_iss].
  destruct p as [|s|back|back s|back s ttl|]; cbn [work]; try discriminate.
  - destruct (stmt_cache_get now sub' iss' c) as [[s|] c']; discriminate.
  - destruct (net now sub' iss') eqn:N; [discriminate|]. destruct back; [discriminate|]. now intros [= _ <- <-].
  - destruct back; discriminate.
Qed.
Theorem fails_by_net grace factor net sub iss : forall acts st st' os, together grace factor net acts st = Some (st', os) ->
  In (Outcome sub iss None) os -> exists t a, In (t, a) acts /\ net t sub iss = None.
Proof.
  induction acts as [|[now a] acts IH]; intros st st' os R I; cbn [together] in R; [injection R as <- <-; destruct I|].
  destruct (act_at grace factor net now a st) as [[st1 o]|] eqn:A; [|discriminate].
  destruct (together grace factor net acts st1) as [[st2 os']|] eqn:T; [|discriminate]. injection R as <- <-.
  assert (K : In (Outcome sub iss None) os' \/ o = Some (Outcome sub iss None)).
  { destruct o as [o|]; auto. destruct I as [->|I]; auto. }
  destruct K as [K | ->].
  - destruct (IH _ _ _ T K) as (t & b & J & N). exists t, b. split; auto. now right.
  - exists now, a. split; [now left|]. eapply act_fails; eauto.
Qed.

Theorem steady_outcomes grace factor net net0 c acts st os sub iss r : entries c = [] -> own_keys acts ->
  (forall t a, In (t, a) acts -> net t sub iss = net0) ->
  together grace factor net acts (c, []) = Some (st, os) -> In (Outcome sub iss r) os ->
  match r with Some s => exists s0, net0 = Some s0 /\ same_document s0 s | None => net0 = None end.
Proof.
  intros E OK S R I. destruct r as [s|].
  - destruct (served_by_net _ _ _ _ _ _ _ _ _ _ E OK R I) as (t & a & s0 & J & N & D). exists s0. split; auto. now rewrite <- (S t a J).
  - destruct (fails_by_net _ _ _ _ _ _ _ _ _ R I) as (t & a & J & N). now rewrite <- (S t a J).
Qed.

(** ** Statements do not get older, if answers are stored one at a time *)

Section Forward.
  Variables (sub iss : string) (net : time -> string -> string -> option stmt).
  Hypothesis NB : never_back net sub iss.

  Definition later (T : time) (x : Z) : Prop := forall t s, (T <= t)%Z -> net t sub iss = Some s -> (x <= st_iat s)%Z.
  Definition under (B : option Z) (x : Z) : Prop := match B with Some b => (b <= x)%Z | None => True end.
  Definition all_later (T : time) (B : option Z) : Prop := match B with Some b => later T b | None => True end.
  Record ahead (B : option Z) (T : time) (st : tstate) : Prop := {
    ah_future : all_later T B;
    ah_entry : forall e, In e (entries (fst st)) -> en_key e = stmt_key sub iss ->
      exists s, en_val e = CStmt s /\ under B (st_iat s) /\ later T (st_iat s);
    ah_same : forall e e', In e (entries (fst st)) -> In e' (entries (fst st)) -> en_key e = stmt_key sub iss -> en_key e' = stmt_key sub iss ->
      en_val e = en_val e';
    ah_held : forall i s p, nth_error (snd st) i = Some (Job sub iss p) -> carried p s ->
      under B (st_iat s) /\ later T (st_iat s) /\
      forall e s', In e (entries (fst st)) -> en_key e = stmt_key sub iss -> en_val e = CStmt s' -> (st_iat s' <= st_iat s)%Z }.

  Lemma later_mono T T' x : (T <= T')%Z -> later T x -> later T' x.
  Proof. intros L H t s G N. apply (H t s); [lia|exact N]. Qed.
  Lemma ahead_mono B T T' st : (T <= T')%Z -> ahead B T st -> ahead B T' st.
  Proof.
    intros L [F E S H]. split; auto.
    - destruct B as [b|]; cbn [all_later] in *; auto. eapply later_mono; eauto.
    - intros e I K. destruct (E e I K) as (s & V & LE & LA). exists s. split; auto. split; auto. eapply later_mono; eauto.
    - intros i s p N C. destruct (H i s p N C) as (H1 & H2 & H3). split; auto. split; auto. eapply later_mono; eauto.
  Qed.

  (** Fewer entries, and jobs that hold nothing more. *)
  Lemma ahead_less B T c js c' js' : ahead B T (c, js) -> (forall e, In e (entries c') -> In e (entries c)) ->
    (forall i s p, nth_error js' i = Some (Job sub iss p) -> carried p s -> exists i' p', nth_error js i' = Some (Job sub iss p') /\ carried p' s) ->
    ahead B T (c', js').
  Proof.
    intros [F E S H] IE IJ. split; cbn [fst snd] in *; auto.
    intros i s p N C. destruct (IJ i s p N C) as (i' & p' & N' & C'). destruct (H i' s p' N' C') as (H1 & H2 & H3).
    split; auto. split; auto. intros e s' I. apply H3. auto.
  Qed.

  Lemma nth_snoc {A} (l l' : list A) i x : nth_error (l ++ l') i = Some x -> nth_error l i = Some x \/ In x l'.
  Proof.
    intros H. destruct (Nat.lt_ge_cases i (List.length l)) as [L|L]; [left; now rewrite nth_error_app1 in H|].
    right. rewrite nth_error_app2 in H by auto. eapply nth_error_In; eauto.
  Qed.

  Lemma act_ahead grace factor now a st st' o B : ahead B now st ->
    at_most_one (holds_answer sub iss) (snd st) -> at_most_one (holds_answer sub iss) (snd st') ->
    (forall ss sk v ttl, a = Other ss sk v ttl -> In ss subsystem_names /\ ss <> "entity_statement") ->
    act_at grace factor net now a st = Some (st', o) ->
    match o with
    | Some (Outcome sub' iss' (Some s)) => if (String.eqb sub' sub && String.eqb iss' iss)%bool then under B (st_iat s) /\ ahead (Some (st_iat s)) now st' else ahead B now st'
    | _ => ahead B now st'
    end.
  Proof.
    destruct st as [c js]. intros AH ONE ONE' OK A. destruct a as [sub' iss'|i|ss sk v ttl|which]; cbn [act_at fst snd] in *.
    - injection A as <- <-. apply (ahead_less B now c js); auto.
      intros i s p N C. apply nth_snoc in N. destruct N as [N|[N|[]]]; [eauto|]. injection N as _ _ <-. destruct C.
    - destruct (nth_error js i) as [[sub' iss' p]|] eqn:NJ; [|discriminate]. cbn [jb_sub jb_iss] in A.
      (* the other jobs hold what they held *)
      assert (G : forall B' c' p' new, ahead B' now (c', js) -> (forall j s, In j new -> ~ carried (jb_at j) s) -> (forall s, ~ carried p' s) ->
         ahead B' now (c', put i (Job sub' iss' p') js ++ new)%list).
      { intros B' c' p' new AH' N C. apply (ahead_less B' now c' js); auto.
        intros k s q K CQ. apply nth_snoc in K. destruct K as [K|K]; [|destruct (N _ s K CQ)].
        apply put_nth in K. destruct K as [[-> E]|[_ K]]; [injection E as -> -> ->; destruct (C s CQ)|eauto]. }
      assert (LESS : forall c', (forall e, In e (entries c') -> In e (entries c)) -> ahead B now (c', js)).
      { intros c' I. apply (ahead_less B now c js); auto. eauto. }
      destruct p as [|s|back|back s|back s ttl|]; cbn [work] in A.
      + pose proof (stmt_get_snd now sub' iss' c) as E. pose proof (get_entries now (stmt_key sub' iss') c) as GE. rewrite <- E in GE.
        pose proof (stmt_get_fst now sub' iss' c) as GF.
        destruct (stmt_cache_get now sub' iss' c) as [[s|] c']; cbn [fst snd] in *; injection A as <- <-.
        * assert (AH2 : forall B', ahead B' now (c', js) -> ahead B' now (c', put i (Job sub' iss' Over) js ++ [Job sub' iss' (Checking s)])%list).
          { intros B' H. apply G; [exact H|intros j s' [<-|[]]; auto|intros s' []]. }
          destruct (String.eqb_spec sub' sub) as [->|]; [|cbn [andb]; apply AH2, LESS; auto].
          destruct (String.eqb_spec iss' iss) as [->|]; [|cbn [andb]; apply AH2, LESS; auto]. cbn [andb].
          destruct (GF s eq_refl) as (s0 & F & ->). apply get_found in F. destruct F as (e & I & K & V).
          destruct AH as [AF AE AS AHD]. cbn [fst snd] in *. destruct (AE e I K) as (s1 & V1 & LE & LA). rewrite V in V1. injection V1 as <-.
          change (st_iat (stmt_msgpack s0)) with (st_iat s0). split; auto. apply AH2. split; cbn [fst snd]; auto.
          -- intros e' I' K'. exists s0. rewrite (AS e' e); auto. split; auto. split; [cbn [under]; lia|auto].
          -- intros k s' q N C. destruct (AHD k s' q N C) as (H1 & H2 & H3). split; [exact (H3 e s0 I K V)|]. split; [exact H2|]. intros e' s'' I'. apply H3. auto.
        * apply G; [|intros j s' []|intros s' []]. apply LESS; auto.
      + injection A as <- <-. apply G; [|intros j s' []|destruct (refresh_due _ _ _ _); intros s' []]. apply LESS; auto.
      + destruct (net now sub' iss') as [s|] eqn:N; injection A as <- <-.
        * destruct AH as [AF AE AS AHD]. cbn [fst snd] in *. split; cbn [fst snd]; auto.
          intros k s' q NK C. apply nth_snoc in NK. destruct NK as [NK|[]]. apply put_nth in NK.
          destruct NK as [[-> EQ]|[_ NK]]; [|eauto]. injection EQ as <- <- ->. cbn [carried] in C. subst s'.
          split; [destruct B as [b|]; cbn [under all_later] in *; auto; apply (AF now s); [lia|auto]|]. split; [intros t s' L NT; apply (NB now t s s'); auto|].
          intros e s' I K V. destruct (AE e I K) as (s1 & V1 & LE & LA). rewrite V in V1. injection V1 as <-. apply (LA now s); [lia|auto].
        * destruct back; (apply G; [|intros j s' []|intros s' []]); apply LESS; auto.
      + injection A as <- <-. apply (ahead_less B now c js); auto.
        intros k s' q NK C. apply nth_snoc in NK. destruct NK as [NK|[]]. apply put_nth in NK.
        destruct NK as [[-> EQ]|[_ NK]]; [|eauto]. injection EQ as <- <- ->. cbn [carried] in C. subst s'.
        exists i, (Holding back s). split; auto. reflexivity.
      + injection A as <- <-.
        destruct (String.eqb_spec sub' sub) as [->|NS]; [destruct (String.eqb_spec iss' iss) as [->|NI]|].
        * destruct AH as [AF AE AS AHD]. cbn [fst snd] in *.
          destruct (AHD i s _ NJ eq_refl) as (H1 & H2 & H3).
          assert (NK : forall k s' q, nth_error (put i (Job sub iss Over) js) k = Some (Job sub iss q) -> ~ carried q s').
          { intros k s' q K C. apply put_nth in K. destruct K as [[_ EQ]|[NE K]]; [injection EQ as ->; destruct C|].
            apply NE. apply (ONE k i _ _ K NJ); (split; [reflexivity|split; [reflexivity|]]); cbn [jb_at]; auto.
            destruct q; cbn [carried] in C; auto. }
          assert (X : forall B', under B' (st_iat s) -> all_later now B' -> ahead B' now (cache_set now (stmt_key sub iss) (CStmt s) ttl c, put i (Job sub iss Over) js ++ [])%list).
          { intros B' LB LN. split; cbn [fst snd]; auto.
            - intros e I K. apply set_entries in I. destruct I as [[_ K']|(_ & V & _)]; [congruence|]. exists s. auto.
            - intros e e' I I' K K'. apply set_entries in I, I'. destruct I as [[_ KK]|(_ & V & _)]; [congruence|].
              destruct I' as [[_ KK]|(_ & V' & _)]; [congruence|]. congruence.
            - intros k s' q K C. rewrite app_nil_r in K. destruct (NK k s' q K C). }
          destruct back; [apply X; auto|]. rewrite !String.eqb_refl. cbn [andb]. split; auto. apply X; [cbn [under]; lia|auto].
        * assert (Y : ahead B now (cache_set now (stmt_key sub iss') (CStmt s) ttl c, put i (Job sub iss' Over) js ++ [])%list).
          { apply G; [|intros j s' []|intros s' []]. destruct AH as [AF AE AS AHD]. cbn [fst snd] in *.
            assert (IN : forall e, In e (entries (cache_set now (stmt_key sub iss') (CStmt s) ttl c)) -> en_key e = stmt_key sub iss -> In e (entries c)).
            { intros e I K. apply set_entries in I. destruct I as [[I _]|(K' & _)]; auto. rewrite K in K'. apply stmt_keys_injective in K'. destruct K'; congruence. }
            split; cbn [fst snd]; auto. intros k s' q NK C. destruct (AHD k s' q NK C) as (H1 & H2 & H3). split; auto. split; auto. eauto. }
          destruct back; [exact Y|]. rewrite String.eqb_refl, (proj2 (String.eqb_neq _ _) NI). exact Y.
        * assert (Y : ahead B now (cache_set now (stmt_key sub' iss') (CStmt s) ttl c, put i (Job sub' iss' Over) js ++ [])%list).
          { apply G; [|intros j s' []|intros s' []]. destruct AH as [AF AE AS AHD]. cbn [fst snd] in *.
            assert (IN : forall e, In e (entries (cache_set now (stmt_key sub' iss') (CStmt s) ttl c)) -> en_key e = stmt_key sub iss -> In e (entries c)).
            { intros e I K. apply set_entries in I. destruct I as [[I _]|(K' & _)]; auto. rewrite K in K'. apply stmt_keys_injective in K'. destruct K'; congruence. }
            split; cbn [fst snd]; auto. intros k s' q NK C. destruct (AHD k s' q NK C) as (H1 & H2 & H3). split; auto. split; auto. eauto. }
          destruct back; [exact Y|]. rewrite (proj2 (String.eqb_neq _ _) NS). exact Y.
      + injection A as <- <-. apply G; [|intros j s' []|intros s' []]. apply LESS; auto.
    - injection A as <- <-. destruct AH as [AF AE AS AHD]. cbn [fst snd] in *.
      assert (IN : forall e, In e (entries (cache_set now (cache_key ss sk) v ttl c)) -> en_key e = stmt_key sub iss -> In e (entries c)).
      { intros e I K. apply set_entries in I. destruct I as [[I _]|(K' & _)]; auto. exfalso. rewrite K in K'. symmetry in K'.
        destruct (OK ss sk v ttl eq_refl) as [O1 O2]. revert K'. now apply stmt_keys_apart. }
      split; cbn [fst snd]; auto. intros k s' q NK C. destruct (AHD k s' q NK C) as (H1 & H2 & H3). split; auto. split; auto. eauto.
    - injection A as <- <-. apply (ahead_less B now c js); auto; [apply sweep_entries|eauto].
  Qed.

  Lemma together_ahead grace factor : forall acts st st' os B T, ahead B T st -> (forall t a, In (t, a) acts -> (T <= t)%Z) -> in_time acts -> own_keys acts ->
    throughout (at_most_one (holds_answer sub iss)) grace factor net acts st ->
    together grace factor net acts st = Some (st', os) ->
    (forall s, In (Outcome sub iss (Some s)) os -> under B (st_iat s)) /\ goes_forward sub iss os.
  Proof.
    induction acts as [|[now a] acts IH]; intros st st' os B T AH LT IT OK TH R; cbn [together] in R.
    { injection R as <- <-. split; [intros s []|]. intros [|x os1] s os2 s' os3 E; discriminate. }
    cbn [throughout] in TH. destruct TH as [O1 TH].
    destruct (act_at grace factor net now a st) as [[st1 o]|] eqn:A; [|discriminate].
    destruct (together grace factor net acts st1) as [[st2 os']|] eqn:TG; [|discriminate]. injection R as <- <-.
    cbn [in_time] in IT. destruct IT as [IT1 IT2].
    apply (ahead_mono B T now) in AH; [|apply (LT now a); now left].
    assert (O2 : at_most_one (holds_answer sub iss) (snd st1)) by (destruct acts as [|[? ?] ?]; apply TH).
    pose proof (act_ahead _ _ _ _ _ _ _ _ AH O1 O2 (fun ss sk v ttl E => OK now ss sk v ttl (or_introl (f_equal (pair now) E))) A) as ST.
    assert (NEXT : forall B', ahead B' now st1 -> (forall s, In (Outcome sub iss (Some s)) os' -> under B' (st_iat s)) /\ goes_forward sub iss os').
    { intros B' AH'. apply (IH st1 st2 os' B' now); auto. intros n ss sk v ttl I. apply (OK n ss sk v ttl). now right. }
    assert (SKIP : forall x, (forall s, x <> Outcome sub iss (Some s)) -> ahead B now st1 ->
       (forall s, In (Outcome sub iss (Some s)) (x :: os') -> under B (st_iat s)) /\ goes_forward sub iss (x :: os')).
    { intros x NX AH'. destruct (NEXT B AH') as [N1 N2]. split.
      - intros s [->|I]; [now destruct (NX s)|auto].
      - intros [|y os1] s os2 s' os3 E; cbn [app] in E; injection E as E1 E2; [now destruct (NX s)|]. exact (N2 os1 s os2 s' os3 E2). }
    destruct o as [[sub' iss' [s|]]|].
    - destruct (String.eqb_spec sub' sub) as [->|NS]; [destruct (String.eqb_spec iss' iss) as [->|NI]|]; cbn [andb] in ST.
      + destruct ST as [LE AH']. destruct (NEXT _ AH') as [N1 N2]. split.
        * intros s' [E|I]; [injection E as <-; auto|]. apply N1 in I. destruct B as [b|]; cbn [under] in *; auto. lia.
        * intros [|y os1] s' os2 s'' os3 E; cbn [app] in E.
          -- injection E as E1 E2. subst s'. apply N1. rewrite E2. apply in_app_iff. right. now left.
          -- apply (f_equal (@tl _)) in E. cbn [tl] in E. exact (N2 os1 s' os2 s'' os3 E).
      + apply SKIP; auto. intros s0 [= E _]. congruence.
      + apply SKIP; auto. intros s0 [= E _ _]. congruence.
    - apply SKIP; auto. intros s0; discriminate.
    - apply NEXT. exact ST.
  Qed.
End Forward.

Theorem forward grace factor net c acts st os sub iss : entries c = [] -> own_keys acts -> in_time acts -> never_back net sub iss ->
  throughout (at_most_one (holds_answer sub iss)) grace factor net acts (c, []) ->
  together grace factor net acts (c, []) = Some (st, os) -> goes_forward sub iss os.
Proof.
  intros E OK IT NB TH R. destruct acts as [|[t0 a0] acts].
  { cbn in R. injection R as <- <-. intros [|x os1] s os2 s' os3 K; discriminate. }
  assert (AH : ahead sub iss net None t0 (c, [])).
  { split; cbn [fst snd all_later]; auto; try (rewrite E; intros; contradiction). intros [|i] s p N; discriminate. }
  apply (together_ahead sub iss net NB grace factor _ _ _ _ None t0 AH) in R; auto; [apply R|].
  intros t a [[= <- <-]|I]; [lia|]. cbn [in_time] in IT. eapply (proj1 IT). exact I.
Qed.

(** ** Calls return *)

Definition rank (p : phase) : nat := match p with Looking => 4 | Checking _ => 4 | Asking _ => 3 | Holding _ _ => 2 | Storing _ _ _ => 1 | Over => 0 end.
Lemma put_same {A} i (x : A) : forall l y, nth_error l i = Some y -> nth_error (put i x l) i = Some x.
Proof. induction i as [|i IH]; intros [|z l] y H; cbn in *; try discriminate; eauto. Qed.
Lemma put_other {A} i k (x : A) : k <> i -> forall l, nth_error (put i x l) k = nth_error l k.
Proof. revert k. induction i as [|i IH]; intros [|k] N [|z l]; cbn; auto; try congruence. Qed.
Lemma nth_app_some {A} (l l' : list A) i x : nth_error l i = Some x -> nth_error (l ++ l') i = Some x.
Proof. intros H. rewrite nth_error_app1; auto. apply nth_error_Some. congruence. Qed.

Lemma act_progress grace factor net now a c js st' o i j : act_at grace factor net now a (c, js) = Some (st', o) ->
  nth_error js i = Some j -> waited_for j ->
  (exists r, o = Some (Outcome (jb_sub j) (jb_iss j) r)) \/
  exists j', nth_error (snd st') i = Some j' /\ waited_for j' /\ jb_sub j' = jb_sub j /\ jb_iss j' = jb_iss j /\
    (rank (jb_at j') + match a with Go k => if Nat.eqb k i then 1 else 0 | _ => 0 end <= rank (jb_at j)).
Proof.
  intros A N W. destruct a as [sub iss|k|ss sk v ttl|which]; cbn [act_at] in A.
  - injection A as <- <-. right. exists j. cbn [snd]. split; [now apply nth_app_some|]. repeat split; auto. lia.
  - destruct (nth_error js k) as [jk|] eqn:NK; [|discriminate].
    destruct (work grace factor net now jk c) as [[[p new] c'] o'] eqn:WK. injection A as <- <-. cbn [snd].
    destruct (Nat.eqb_spec k i) as [->|NE].
    + rewrite N in NK. injection NK as <-. destruct j as [sub iss ph]. unfold waited_for in *. cbn [jb_at jb_sub jb_iss] in *.
      assert (X : forall p', rank p' + 1 <= rank ph -> match p' with Looking | Asking false | Holding false _ | Storing false _ _ => True | _ => False end ->
        exists j', nth_error (put i (Job sub iss p') js ++ new)%list i = Some j' /\
          match jb_at j' with Looking | Asking false | Holding false _ | Storing false _ _ => True | _ => False end /\
          jb_sub j' = sub /\ jb_iss j' = iss /\ rank (jb_at j') + 1 <= rank ph).
      { intros p' R Wp. exists (Job sub iss p'). split; [apply nth_app_some; eapply put_same; eauto|]. cbn [jb_at jb_sub jb_iss]. auto. }
      destruct ph as [|s|[]|[] s|[] s ttl|]; try destruct W; cbn [work] in WK.
      * destruct (stmt_cache_get now sub iss c) as [[s|] c0]; injection WK as <- <- <- <-; [left; eauto|right; apply X; cbn; auto; lia].
      * destruct (net now sub iss) as [s|]; injection WK as <- <- <- <-; [right; apply X; cbn; auto; lia|left; eauto].
      * injection WK as <- <- <- <-. right. apply X; cbn; auto; lia.
      * injection WK as <- <- <- <-. left. eauto.
    + right. exists j. split; [apply nth_app_some; rewrite put_other; auto|]. repeat split; auto. lia.
  - injection A as <- <-. right. exists j. cbn [snd]. repeat split; auto. lia.
  - injection A as <- <-. right. exists j. cbn [snd]. repeat split; auto. lia.
Qed.

Theorem calls_return grace factor net : forall acts st st' os i j, together grace factor net acts st = Some (st', os) ->
  nth_error (snd st) i = Some j -> waited_for j -> rank (jb_at j) <= steps_of i acts ->
  exists r, In (Outcome (jb_sub j) (jb_iss j) r) os.
Proof.
  induction acts as [|[now a] acts IH]; intros [c js] st' os i j R N W RK; cbn [together snd] in *.
  { unfold steps_of in RK. cbn in RK. destruct j as [sub iss p]. unfold waited_for in W. cbn [jb_at] in *. destruct p; cbn in *; lia || destruct W. }
  destruct (act_at grace factor net now a (c, js)) as [[st1 o]|] eqn:A; [|discriminate].
  destruct (together grace factor net acts st1) as [[st2 os']|] eqn:T; [|discriminate]. injection R as <- <-.
  destruct (act_progress _ _ _ _ _ _ _ _ _ _ _ A N W) as [[r ->]|(j' & N' & W' & E1 & E2 & RK')].
  { exists r. now left. }
  assert (RK2 : rank (jb_at j') <= steps_of i acts).
  { unfold steps_of in *. cbn [filter snd] in RK. destruct a as [sub iss|k|ss sk v ttl|which]; cbn in RK; try lia.
    destruct (Nat.eqb k i); cbn [List.length] in RK; lia. }
  destruct (IH _ _ _ _ _ T N' W' RK2) as [r I]. rewrite E1, E2 in I. exists r. destruct o; [now right|exact I].
Qed.
Theorem calls_return4 grace factor net acts st st' os i j : together grace factor net acts st = Some (st', os) ->
  nth_error (snd st) i = Some j -> waited_for j -> 4 <= steps_of i acts -> exists r, In (Outcome (jb_sub j) (jb_iss j) r) os.
Proof.
  intros R N W L. apply (calls_return _ _ _ _ _ _ _ _ _ R N W). destruct j as [sub iss p]. destruct p; cbn; lia.
Qed.
