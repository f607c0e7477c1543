(** Proofs about the requests and the delays of calls that run at the same time. *)
From Coq Require Import QArith Lia.
From Verif Require Import Base GoVal Policy Schema Metadata Chain Resolver TrustMark Refresher FloatTime Cache SpecCache CacheFacts
  Together SpecTogether TogetherFacts SpecBusy.
Local Open Scope nat_scope.
Local Open Scope string_scope.

(** ** At most one request for a call *)

Section Each.
  Variable q : string * string.
  Definition isq (j : job) : bool := String.eqb (jb_sub j) (fst q) && String.eqb (jb_iss j) (snd q).
  Definition may_ask (j : job) : bool :=
    isq j && match jb_at j with Looking | Checking _ | Asking _ => true | _ => false end.
  Definition open (js : list job) : nat := List.length (filter may_ask js).
  Lemma open_app a b : open (a ++ b) = open a + open b.
  Proof. unfold open. now rewrite filter_app, app_length. Qed.
  Lemma open_put : forall js i j x, nth_error js i = Some j -> open (put i x js) + open [j] = open js + open [x].
  Proof.
    unfold open. induction js as [|y js IH]; intros [|i] j x H; cbn [nth_error] in H; try discriminate.
    - injection H as ->. cbn [put filter]. destruct (may_ask x), (may_ask j); cbn [List.length]; lia.
    - specialize (IH i j x H). cbn [put]. cbn [filter] in *. destruct (may_ask y); cbn [List.length] in *; lia.
  Qed.
  Definition sent_now (a : act) (js : list job) : list (string * string) :=
    match a with
    | Go i => match nth_error js i with Some (Job sub iss (Asking _)) => [(sub, iss)] | _ => [] end
    | _ => []
    end.
  Lemma times_app l l' : times_in q (l ++ l') = times_in q l + times_in q l'.
  Proof. unfold times_in. now rewrite filter_app, app_length. Qed.
  Lemma act_open grace factor net now a st st' o : act_at grace factor net now a st = Some (st', o) ->
    times_in q (sent_now a (snd st)) + open (snd st') <= open (snd st) + times_in q (calls_begun [(now, a)]).
  Proof.
    destruct st as [c js]. intros A. destruct a as [sub iss|i|ss sk v ttl|which]; cbn [act_at snd sent_now] in *.
    - injection A as <- <-. cbn [snd]. rewrite open_app. unfold open at 2, may_ask, isq. unfold calls_begun, times_in.
      cbn [flat_map snd app filter jb_sub jb_iss jb_at fst List.length]. rewrite andb_true_r.
      destruct (String.eqb sub (fst q) && String.eqb iss (snd q)); cbn; lia.
    - destruct (nth_error js i) as [[sub iss p]|] eqn:NJ; [|discriminate]. cbn [jb_sub jb_iss] in A.
      destruct (work grace factor net now (Job sub iss p) c) as [[[p' new] c'] o'] eqn:W. injection A as <- <-. cbn [snd].
      rewrite open_app. pose proof (open_put js i (Job sub iss p) (Job sub iss p') NJ) as P.
      assert (Z0 : times_in q (calls_begun [(now, Go i)]) = 0) by reflexivity. rewrite Z0.
      assert (K : forall b ph, open [Job sub iss ph] = (if String.eqb sub (fst q) && String.eqb iss (snd q) && b then 1 else 0) \/
                               b <> match ph with Looking | Checking _ | Asking _ => true | _ => false end).
      { intros b ph. destruct (Bool.bool_dec b (match ph with Looking | Checking _ | Asking _ => true | _ => false end)) as [E|E]; [left|now right].
        subst b. unfold open, may_ask, isq. cbn [filter jb_sub jb_iss jb_at]. destruct (_ && _ && _); reflexivity. }
      assert (S : forall back, times_in q (match Asking back with Asking _ => [(sub, iss)] | _ => [] end) = if String.eqb sub (fst q) && String.eqb iss (snd q) then 1 else 0).
      { intros back. unfold times_in. cbn [filter fst snd]. destruct (_ && _); reflexivity. }
      destruct p as [|s|back|back s|back s ttl|]; cbn [work] in W.
      + destruct (stmt_cache_get now sub iss c) as [[s|] c1]; injection W as <- <- <- <-.
        * change (open (@nil job)) with 0 in *. unfold times_in at 1; cbn [filter List.length].
          destruct (K true Looking) as [E|E]; [|destruct E; reflexivity]. destruct (K false Over) as [E1|E1]; [|destruct E1; reflexivity].
          destruct (K true (Checking s)) as [E2|E2]; [|destruct E2; reflexivity]. rewrite E, E1 in P. rewrite E2. rewrite andb_false_r, andb_true_r in *. lia.
        * change (open (@nil job)) with 0 in *. unfold times_in at 1; cbn [filter List.length].
          destruct (K true Looking) as [E|E]; [|destruct E; reflexivity]. destruct (K true (Asking false)) as [E1|E1]; [|destruct E1; reflexivity]. lia.
      + injection W as <- <- <- <-. change (open (@nil job)) with 0 in *. unfold times_in at 1; cbn [filter List.length].
        destruct (K true (Checking s)) as [E|E]; [|destruct E; reflexivity].
        destruct (refresh_due grace factor now s).
        * destruct (K true (Asking true)) as [E1|E1]; [|destruct E1; reflexivity]. lia.
        * destruct (K false Over) as [E1|E1]; [|destruct E1; reflexivity]. rewrite andb_false_r in E1. lia.
      + rewrite (S back). destruct (K true (Asking back)) as [E|E]; [|destruct E; reflexivity]. rewrite andb_true_r in E.
        destruct (net now sub iss) as [s|]; injection W as <- <- <- <-; change (open (@nil job)) with 0 in *.
        * destruct (K false (Holding back s)) as [E1|E1]; [|destruct E1; reflexivity]. rewrite andb_false_r in E1. lia.
        * destruct (K false Over) as [E1|E1]; [|destruct E1; reflexivity]. rewrite andb_false_r in E1. lia.
      + injection W as <- <- <- <-. change (open (@nil job)) with 0 in *. unfold times_in at 1; cbn [filter List.length].
        destruct (K false (Holding back s)) as [E|E]; [|destruct E; reflexivity]. destruct (K false (Storing back s (until (st_exp s) now))) as [E1|E1]; [|destruct E1; reflexivity]. lia.
      + injection W as <- <- <- <-. change (open (@nil job)) with 0 in *. unfold times_in at 1; cbn [filter List.length].
        destruct (K false (Storing back s ttl)) as [E|E]; [|destruct E; reflexivity]. destruct (K false Over) as [E1|E1]; [|destruct E1; reflexivity]. lia.
      + injection W as <- <- <- <-. change (open (@nil job)) with 0 in *. unfold times_in at 1; cbn [filter List.length]. lia.
    - injection A as <- <-. cbn [snd]. unfold times_in at 1. cbn. lia.
    - injection A as <- <-. cbn [snd]. unfold times_in at 1. cbn. lia.
  Qed.
  Lemma sent_cons grace factor net now a acts st : requests_sent grace factor net ((now, a) :: acts) st =
    (sent_now a (snd st) ++ match act_at grace factor net now a st with Some (st', _) => requests_sent grace factor net acts st' | None => [] end)%list.
  Proof. reflexivity. Qed.
  Lemma sent_le grace factor net : forall acts st,
    times_in q (requests_sent grace factor net acts st) <= open (snd st) + times_in q (calls_begun acts).
  Proof.
    induction acts as [|[now a] acts IH]; intros st; [cbn; lia|]. rewrite sent_cons, times_app.
    assert (C : calls_begun ((now, a) :: acts) = (calls_begun [(now, a)] ++ calls_begun acts)%list) by (unfold calls_begun; cbn [flat_map]; now rewrite app_nil_r).
    rewrite C, times_app. destruct (act_at grace factor net now a st) as [[st' o]|] eqn:A.
    - pose proof (act_open _ _ _ _ _ _ _ _ A). specialize (IH st'). lia.
    - destruct st as [c js]. destruct a as [sub iss|i|ss sk v ttl|which]; cbn [act_at snd sent_now] in *; try discriminate.
      destruct (nth_error js i) as [j|]; [destruct (work grace factor net now j c) as [[[? ?] ?] ?]; discriminate|]. cbn. lia.
  Qed.
End Each.

Theorem one_each grace factor net c acts sub iss :
  times_in (sub, iss) (requests_sent grace factor net acts (c, [])) <= times_in (sub, iss) (calls_begun acts).
Proof. apply (sent_le (sub, iss) grace factor net acts (c, [])). Qed.

(** ** No request while a statement is cached and not due *)

Lemma filter_length_le {A} (f : A -> bool) l : List.length (filter f l) <= List.length l.
Proof. induction l as [|x l IH]; cbn; [auto|]. destruct (f x); cbn; lia. Qed.

Section Fresh.
  Variables (grace : Z) (factor : Q) (net : time -> string -> string -> option stmt) (sub iss : string) (s : stmt) (x : option Z).
  Hypothesis small : (grace < 2 ^ 63 - 1)%Z.
  Definition quiet (js : list job) : Prop :=
    forall j, In j js -> jb_sub j = sub -> jb_iss j = iss -> jb_at j = Looking \/ jb_at j = Checking (stmt_msgpack s) \/ jb_at j = Over.
  Lemma not_due t : (t + grace < st_exp s)%Z -> refresh_due grace factor t (stmt_msgpack s) = false.
  Proof.
    intros L. unfold refresh_due. change (st_exp (stmt_msgpack s)) with (st_exp s). apply andb_false_iff. left. apply Z.leb_gt. unfold until, sat. lia.
  Qed.
  Lemma set_keeps now k v ttl c a acts : k <> stmt_key sub iss -> cached_until c sub iss s x -> undisturbed c sub iss (a :: acts) ->
    cached_until (cache_set now k v ttl c) sub iss s x /\ undisturbed (cache_set now k v ttl c) sub iss acts.
  Proof.
    intros N C U. destruct c as [l|l]; unfold cached_until, undisturbed in *; cbn [cache_set].
    - assert (LE : List.length (drop_entry k l) <= List.length l) by apply filter_length_le.
      unfold mem_set. cbn [List.length] in U. destruct (negb _ && _).
      + split; [now rewrite find_drop_other|lia].
      + destruct (N.ltb_spec max_size (N.of_nat (List.length (Entry k v (mem_exp now ttl) :: drop_entry k l)))) as [L|L]; cbn [List.length] in *; [lia|].
        split; [|lia]. unfold find_entry. cbn [find en_key]. apply String.eqb_neq in N. rewrite N. apply String.eqb_neq in N. rewrite <- C. exact (find_drop_other _ _ l N).
    - split; [|intros n w I; apply (U n w); now right].
      unfold red_set, find_entry. cbn [find en_key]. apply String.eqb_neq in N. rewrite N. apply String.eqb_neq in N. rewrite <- C. exact (find_drop_other _ _ l N).
  Qed.
  Lemma get_keeps now sub' iss' c a acts : (sub' = sub -> iss' = iss -> still_there c x now) -> cached_until c sub iss s x -> undisturbed c sub iss (a :: acts) ->
    cached_until (snd (cache_get now (stmt_key sub' iss') c)) sub iss s x /\ undisturbed (snd (cache_get now (stmt_key sub' iss') c)) sub iss acts.
  Proof.
    intros ST C U. destruct c as [l|l]; unfold cached_until, undisturbed in *; cbn [cache_get snd].
    - unfold mem_get. destruct (find_entry (stmt_key sub' iss') l) as [e|] eqn:F; [|cbn [snd List.length] in *; split; [auto|lia]].
      destruct (expired now e) eqn:X; cbn [snd List.length] in *; [|split; [auto|lia]].
      assert (LE : List.length (drop_entry (stmt_key sub' iss') l) <= List.length l) by apply filter_length_le. split; [|lia].
      rewrite find_drop_other; auto. intros K. pose proof K as K'. apply stmt_keys_injective in K'. destruct K' as [-> ->].
      rewrite C in F. injection F as <-. specialize (ST eq_refl eq_refl). unfold expired in X. cbn [en_exp] in X. unfold still_there in ST.
      destruct x as [x'|]; [|discriminate]. apply Z.ltb_lt in X. lia.
    - split; auto. intros n w I. apply (U n w). now right.
  Qed.
  Lemma get_hit now c : still_there c x now -> cached_until c sub iss s x -> fst (stmt_cache_get now sub iss c) = Some (stmt_msgpack s).
  Proof.
    intros ST C. unfold stmt_cache_get. destruct c as [l|l]; unfold cached_until, still_there in *; cbn [cache_get].
    - unfold mem_get. rewrite C. unfold expired. cbn [en_exp]. destruct x as [x'|]; [destruct (Z.ltb_spec x' now); [lia|]|]; reflexivity.
    - unfold red_find. rewrite C. unfold red_expired. cbn [en_exp]. destruct x as [x'|]; [destruct (Z.ltb_spec x' (now / ms)); [lia|]|]; reflexivity.
  Qed.
  Lemma still_same c c' now : is_memory c' = is_memory c -> still_there c x now -> still_there c' x now.
  Proof. unfold still_there. destruct c, c'; cbn [is_memory]; intros E; try discriminate; auto. Qed.
  Lemma same_kind now sub' iss' c : is_memory (snd (cache_get now (stmt_key sub' iss') c)) = is_memory c.
  Proof. apply get_memory. Qed.

  Lemma fresh_quiet : forall acts c js, cached_until c sub iss s x -> quiet js -> own_keys acts -> undisturbed c sub iss acts ->
    (forall t a, In (t, a) acts -> still_there c x t /\ (t + grace < st_exp s)%Z) ->
    times_in (sub, iss) (requests_sent grace factor net acts (c, js)) = 0.
  Proof.
    induction acts as [|[now a] acts IH]; intros c js C Qu OK U T; [reflexivity|].
    rewrite (sent_cons grace factor net now a acts (c, js)), times_app. cbn [snd].
    destruct (T now a (or_introl eq_refl)) as [ST DUE].
    assert (OK' : own_keys acts) by (intros n ss sk v ttl I; apply (OK n ss sk v ttl); now right).
    assert (T' : forall c', is_memory c' = is_memory c -> forall t b, In (t, b) acts -> still_there c' x t /\ (t + grace < st_exp s)%Z).
    { intros c' M t b I. destruct (T t b (or_intror I)) as [S1 S2]. split; auto. now apply (still_same c). }
    assert (U0 : undisturbed c sub iss acts).
    { unfold undisturbed in *. destruct c; cbn [List.length] in *; [lia|]. intros n w I. apply (U n w). now right. }
    destruct a as [sub' iss'|i|ss sk v ttl|which]; cbn [act_at sent_now].
    - rewrite IH; [reflexivity|..]; auto; try (now apply T'). intros j I E1 E2. apply in_app_iff in I. destruct I as [I|[<-|[]]]; auto.
    - destruct (nth_error js i) as [[sub' iss' p]|] eqn:NJ; [|reflexivity]. pose proof (nth_error_In _ _ NJ) as IJ. cbn [jb_sub jb_iss].
      assert (G : forall p' new, (sub' = sub -> iss' = iss -> p' = Looking \/ p' = Checking (stmt_msgpack s) \/ p' = Over) ->
         (forall j, In j new -> jb_sub j = sub -> jb_iss j = iss -> jb_at j = Checking (stmt_msgpack s)) -> quiet (put i (Job sub' iss' p') js ++ new)%list).
      { intros p' new H N j I E1 E2. apply in_app_iff in I. destruct I as [I|I]; [|right; left; auto].
        apply put_in in I. destruct I as [->|I]; [cbn [jb_sub jb_iss jb_at] in *|]; auto. }
      assert (QJ := Qu _ IJ). cbn [jb_sub jb_iss jb_at] in QJ.
      destruct p as [|s1|back|back s1|back s1 ttl|]; cbn [work].
      + pose proof (get_keeps now sub' iss' c (now, Go i) acts (fun _ _ => ST) C U) as [C' U']. pose proof (get_memory now (stmt_key sub' iss') c) as M.
        rewrite <- stmt_get_snd in C', U', M.
        assert (H' : sub' = sub -> iss' = iss -> fst (stmt_cache_get now sub' iss' c) = Some (stmt_msgpack s)) by (intros -> ->; now apply get_hit).
        destruct (stmt_cache_get now sub' iss' c) as [[s1|] c']; cbn [fst snd] in *; rewrite IH; [reflexivity|..]; auto; try (now apply T').
        * apply G; [auto|]. intros j [<-|[]] E1 E2. cbn [jb_sub jb_iss jb_at] in *. specialize (H' E1 E2). now injection H' as ->.
        * apply G; [|intros j []]. intros E1 E2. specialize (H' E1 E2). discriminate.
      + rewrite IH; [reflexivity|..]; auto; try (now apply T'). apply G; [|intros j []]. intros E1 E2. destruct (QJ E1 E2) as [Q1|[Q1|Q1]]; try discriminate.
        injection Q1 as ->. rewrite not_due by auto. auto.
      + assert (N : sub' = sub -> iss' = iss -> False) by (intros E1 E2; destruct (QJ E1 E2) as [Q1|[Q1|Q1]]; discriminate).
        assert (Z0 : times_in (sub, iss) [(sub', iss')] = 0).
        { unfold times_in. cbn [filter fst snd]. destruct (String.eqb_spec sub' sub) as [E1|E1]; [destruct (String.eqb_spec iss' iss) as [E2|E2]; [destruct (N E1 E2)|]|]; reflexivity. }
        rewrite Z0. destruct (net now sub' iss') as [s1|]; rewrite IH; [reflexivity|..]; auto; try (now apply T'); (apply G; [|intros j []]); intros E1 E2; destruct (N E1 E2).
      + assert (N : sub' = sub -> iss' = iss -> False) by (intros E1 E2; destruct (QJ E1 E2) as [Q1|[Q1|Q1]]; discriminate).
        rewrite IH; [reflexivity|..]; auto; try (now apply T'). apply G; [|intros j []]; intros E1 E2; destruct (N E1 E2).
      + assert (N : sub' = sub -> iss' = iss -> False) by (intros E1 E2; destruct (QJ E1 E2) as [Q1|[Q1|Q1]]; discriminate).
        assert (NK : stmt_key sub' iss' <> stmt_key sub iss) by (intros K; apply stmt_keys_injective in K; destruct K; auto).
        destruct (set_keeps now _ (CStmt s1) ttl c _ _ NK C U) as [C' U'].
        rewrite IH; [reflexivity|..]; auto; try (now apply T'); [|now apply T', set_memory]. apply G; [|intros j []]; intros E1 E2; destruct (N E1 E2).
      + rewrite IH; [reflexivity|..]; auto; try (now apply T'). apply G; [auto|intros j []].
    - destruct (OK now ss sk v ttl (or_introl eq_refl)) as [O1 O2]. assert (NK : cache_key ss sk <> stmt_key sub iss) by now apply stmt_keys_apart.
      destruct (set_keeps now _ v ttl c _ _ NK C U) as [C' U']. rewrite IH; [reflexivity|..]; auto; try (now apply T'). now apply T', set_memory.
    - rewrite IH; [reflexivity|..]; auto; try (now apply T').
      + unfold cached_until in *. destruct c as [l|l]; cbn [cache_sweep].
        * unfold find_entry in *. clear - C ST. induction l as [|e l IH]; [discriminate|]. cbn [find filter] in *.
          destruct (String.eqb (en_key e) (stmt_key sub iss)) eqn:K.
          -- injection C as ->. assert (X : expired now (Entry (stmt_key sub iss) (CStmt s) x) = false).
             { unfold expired, still_there in *. cbn [en_exp]. destruct x as [x'|]; auto. apply Z.ltb_ge. lia. }
             rewrite X, andb_false_r. cbn [negb find]. now rewrite K.
          -- destruct (negb (which (en_key e) && expired now e)); cbn [find]; [rewrite K|]; auto.
        * assert (W : which (stmt_key sub iss) = false) by (apply (U now which); now left).
          unfold find_entry in *. clear - C W. induction l as [|e l IH]; [discriminate|]. cbn [find filter] in *.
          destruct (String.eqb (en_key e) (stmt_key sub iss)) eqn:K.
          -- injection C as ->. cbn [en_key]. rewrite W. cbn [negb find]. now rewrite K.
          -- destruct (negb (which (en_key e))); cbn [find]; [rewrite K|]; auto.
      + destruct c as [l|l]; unfold undisturbed in *; cbn [cache_sweep].
        * assert (LE : List.length (filter (fun e : entry cached => negb (which (en_key e) && expired now e)) l) <= List.length l) by apply filter_length_le. lia.
        * auto.
      + apply T'. now destruct c.
  Qed.
End Fresh.

Theorem fresh_none grace factor net sub iss s x acts c js : (grace < 2 ^ 63 - 1)%Z ->
  cached_until c sub iss s x -> (forall j, In j js -> jb_sub j = sub -> jb_iss j = iss -> jb_at j = Looking \/ jb_at j = Over) ->
  own_keys acts -> undisturbed c sub iss acts ->
  (forall t a, In (t, a) acts -> still_there c x t /\ (t + grace < st_exp s)%Z) ->
  times_in (sub, iss) (requests_sent grace factor net acts (c, js)) = 0.
Proof.
  intros G C Q OK U T. apply (fresh_quiet grace factor net sub iss s x G); auto. intros j I E1 E2. destruct (Q j I E1 E2); auto.
Qed.
