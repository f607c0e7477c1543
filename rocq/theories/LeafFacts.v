(** Proofs about Leaf.v. *)
From Coq Require Import QArith Lia.
From Verif Require Import Base BaseFacts GoVal Metadata Chain Resolver FloatTime Json JsonFacts TrustMark Leaf SpecLeaf.
Local Open Scope nat_scope.
Local Open Scope string_scope.

(** ** Query strings *)
Lemma unreserved_plain c : unreserved c = true ->
  Ascii.eqb c "%" = false /\ Ascii.eqb c "+" = false /\ Ascii.eqb "&" c = false /\ Ascii.eqb "=" c = false /\
  Ascii.eqb "#" c = false /\ Ascii.eqb "?" c = false.
Proof. destruct c as [[] [] [] [] [] [] [] []]; vm_compute; intros; repeat split; congruence. Qed.
Lemma space_only c : Nat.eqb (nat_of_ascii c) 32 = true -> c = " "%char.
Proof. intros H. apply Nat.eqb_eq in H. rewrite <- (ascii_nat_embedding c), H. reflexivity. Qed.
Lemma hex_back c : unhex (hex_digit (nat_of_ascii c / 16)) = Some (nat_of_ascii c / 16) /\
  unhex (hex_digit (nat_of_ascii c mod 16)) = Some (nat_of_ascii c mod 16) /\
  ascii_of_nat (16 * (nat_of_ascii c / 16) + nat_of_ascii c mod 16) = c.
Proof. destruct c as [[] [] [] [] [] [] [] []]; vm_compute; auto. Qed.
Lemma unescape_pct a b r : unescape (String "%" (String a (String b r))) =
  match unhex a, unhex b, unescape r with
  | Some x, Some y, Some t => Some (String (ascii_of_nat (16 * x + y)) t)
  | _, _, _ => None
  end.
Proof. reflexivity. Qed.
Lemma unescape_escape s : unescape (query_escape s) = Some s.
Proof.
  induction s as [|c s IH]; [reflexivity|]. cbn [query_escape].
  destruct (unreserved c) eqn:U.
  - destruct (unreserved_plain c U) as (P & Q & _). cbn [unescape]. now rewrite P, Q, IH.
  - destruct (Nat.eqb (nat_of_ascii c) 32) eqn:SP.
    + apply space_only in SP. subst c. cbn [unescape]. change (Ascii.eqb "+" "%") with false. cbn iota. now rewrite IH.
    + destruct (hex_back c) as (H1 & H2 & H3). rewrite unescape_pct, H1, H2, IH, H3. reflexivity.
Qed.

(** No occurrence of a byte. *)
Fixpoint free (d : ascii) (s : string) : bool :=
  match s with EmptyString => true | String c r => negb (Ascii.eqb d c) && free d r end.
Lemma free_app d s t : free d (s ++ t) = free d s && free d t.
Proof. induction s as [|c s IH]; [reflexivity|]. cbn. rewrite IH. now rewrite Bool.andb_assoc. Qed.
Lemma hex_plain d n : n < 16 -> (d = "&" \/ d = "=" \/ d = "#" \/ d = "?")%char -> Ascii.eqb d (hex_digit n) = false.
Proof.
  intros H D. do 16 (destruct n as [|n]; [destruct D as [-> | [-> | [-> | ->]]]; reflexivity|]). lia.
Qed.
Lemma escape_free d s : (d = "&" \/ d = "=" \/ d = "#" \/ d = "?")%char -> free d (query_escape s) = true.
Proof.
  intros D. induction s as [|c s IH]; [reflexivity|]. cbn [query_escape].
  destruct (unreserved c) eqn:U.
  - cbn [free]. rewrite IH, Bool.andb_true_r. destruct (unreserved_plain c U) as (_ & _ & A & B & C & E).
    destruct D as [-> | [-> | [-> | ->]]]; now rewrite ?A, ?B, ?C, ?E.
  - destruct (Nat.eqb (nat_of_ascii c) 32).
    + cbn [free]. rewrite IH. destruct D as [-> | [-> | [-> | ->]]]; reflexivity.
    + cbn [free]. rewrite IH. pose proof (nat_ascii_bounded c) as B.
      rewrite !hex_plain; auto; [|apply Nat.mod_upper_bound; lia|apply Nat.div_lt_upper_bound; lia].
      destruct D as [-> | [-> | [-> | ->]]]; reflexivity.
Qed.

Lemma cut_app d s t : free d s = true -> cut d (s ++ String d t) = (s, t).
Proof.
  induction s as [|c s IH]; cbn [free append cut].
  - intros _. now rewrite Ascii.eqb_refl.
  - intros F. apply andb_prop in F. destruct F as [F1 F2]. apply Bool.negb_true_iff in F1. rewrite F1, IH by exact F2. reflexivity.
Qed.
Lemma cut_free d s : free d s = true -> cut d s = (s, "").
Proof.
  induction s as [|c s IH]; cbn [free cut]; [reflexivity|].
  intros F. apply andb_prop in F. destruct F as [F1 F2]. apply Bool.negb_true_iff in F1. now rewrite F1, IH.
Qed.
Lemma cut_app_free d s t : free d s = true -> cut d (s ++ t) = (s ++ fst (cut d t), snd (cut d t)).
Proof.
  induction s as [|c s IH]; cbn [free append cut].
  - intros _. now destruct (cut d t).
  - intros F. apply andb_prop in F. destruct F as [F1 F2]. apply Bool.negb_true_iff in F1. now rewrite F1, IH.
Qed.
Lemma cut_same_free d s : cut d s = (s, "") -> free d s = true.
Proof.
  induction s as [|c s IH]; cbn [free cut]; [reflexivity|]. destruct (Ascii.eqb d c) eqn:E; [discriminate|].
  destruct (cut d s) as [a b]. intros [= -> ->]. now apply IH.
Qed.

Lemma split_free d s : free d s = true -> split d s = [s].
Proof.
  induction s as [|c s IH]; cbn [free split]; [reflexivity|].
  intros F. apply andb_prop in F. destruct F as [F1 F2]. apply Bool.negb_true_iff in F1. now rewrite F1, IH.
Qed.
Lemma split_app d s t : free d s = true -> split d (s ++ String d t) = s :: split d t.
Proof.
  induction s as [|c s IH]; cbn [free append split].
  - intros _. now rewrite Ascii.eqb_refl.
  - intros F. apply andb_prop in F. destruct F as [F1 F2]. apply Bool.negb_true_iff in F1. now rewrite F1, IH.
Qed.
Lemma split_concat l : l <> [] -> Forall (fun s => free "&" s = true) l -> split "&" (String.concat "&" l) = l.
Proof.
  intros N F. destruct l as [|x l]; [congruence|]. clear N. revert x F. induction l as [|y l IH]; intros x F.
  - cbn. apply split_free. now inversion F.
  - change (String.concat "&" (x :: y :: l)) with (x ++ String "&" (String.concat "&" (y :: l))).
    inversion F; subst. rewrite split_app by assumption. now rewrite IH.
Qed.

Lemma read_encoded kv : read_pair (encode_pair kv) = [kv].
Proof.
  destruct kv as [k v]. unfold read_pair, encode_pair. cbn [fst snd].
  destruct (String.eqb_spec (query_escape k ++ "=" ++ query_escape v) "") as [E|_].
  - destruct (query_escape k); discriminate.
  - change ("=" ++ query_escape v) with (String "=" (query_escape v)). rewrite cut_app by (apply escape_free; auto).
    now rewrite !unescape_escape.
Qed.
Lemma pair_free kv : free "&" (encode_pair kv) = true.
Proof.
  unfold encode_pair. rewrite !free_app, !escape_free by auto. reflexivity.
Qed.
Lemma read_encode m : read_query (encode m) = pairs m.
Proof.
  unfold read_query, encode. destruct (pairs m) as [|x l] eqn:P; [reflexivity|].
  rewrite split_concat; [|discriminate|].
  - generalize (x :: l). clear. intros l. induction l as [|y l IH]; [reflexivity|]. cbn [map flat_map]. rewrite read_encoded, IH. reflexivity.
  - apply Forall_forall. intros s I. apply in_map_iff in I. destruct I as (kv & <- & _). apply pair_free.
Qed.
Lemma encode_free d m : (d = "#" \/ d = "?")%char -> free d (encode m) = true.
Proof.
  intros D. unfold encode. generalize (pairs m). intros l.
  assert (P : forall kv, free d (encode_pair kv) = true).
  { intros kv. unfold encode_pair. rewrite !free_app, !escape_free by tauto. destruct D as [-> | ->]; reflexivity. }
  destruct l as [|x l]; [reflexivity|]. cbn [map]. revert x. induction l as [|y l IH]; intros x; [apply P|].
  change (String.concat "&" (encode_pair x :: map encode_pair (y :: l)))
    with (encode_pair x ++ String "&" (String.concat "&" (encode_pair y :: map encode_pair l))).
  rewrite free_app, P. cbn [free]. rewrite IH. destruct D as [-> | ->]; reflexivity.
Qed.

(** ** Sorting *)
Lemma sort_perm {V} (m : smap V) : Permutation m (sort_keys m).
Proof.
  unfold sort_keys. induction m as [|kv m IH]; [constructor|]. cbn [fold_right].
  assert (I : forall l, Permutation (kv :: l) (insert_sorted kv l)).
  { induction l as [|x l IHl]; [constructor; constructor|]. cbn [insert_sorted]. destruct (String.leb (fst kv) (fst x)).
    - reflexivity.
    - rewrite <- IHl. constructor. }
  rewrite <- I. now constructor.
Qed.
Lemma values_of_app k l1 l2 : values_of k (l1 ++ l2)%list = (values_of k l1 ++ values_of k l2)%list.
Proof. unfold values_of. now rewrite filter_app, map_app. Qed.
Lemma values_of_one k k' l : values_of k (map (fun x => (k', x)) l) = if String.eqb k k' then l else [].
Proof.
  unfold values_of. induction l as [|x l IH]; [now destruct (String.eqb k k')|]. cbn [map filter fst].
  destruct (String.eqb k k') eqn:E; cbn [map snd]; rewrite IH; reflexivity.
Qed.
Lemma values_of_pairs_any k (m : values) : NoDup (keys m) ->
  values_of k (flat_map (fun kv => map (fun x => (fst kv, x)) (items (snd kv))) m) =
  match lookup k m with Some v => items v | None => [] end.
Proof.
  induction m as [|[k' v] m IH]; intros N; [reflexivity|]. cbn [flat_map fst snd lookup].
  rewrite values_of_app, values_of_one. cbn in N. apply NoDup_cons_iff in N. destruct N as [N1 N2]. rewrite IH by exact N2.
  destruct (String.eqb_spec k k') as [->|]; [|reflexivity].
  destruct (lookup k' m) as [w|] eqn:L; [|now rewrite app_nil_r].
  destruct N1. apply lookup_In in L. now apply (in_map fst) in L.
Qed.
Lemma perm_lookup {V} k (m m' : smap V) : Permutation m m' -> NoDup (keys m) -> lookup k m' = lookup k m.
Proof.
  intros P N. assert (N' : NoDup (keys m')) by (eapply Permutation_NoDup; [apply Permutation_map, P|exact N]).
  destruct (lookup k m) as [v|] eqn:L.
  - apply lookup_In in L. apply (Permutation_in _ P) in L. now apply In_lookup.
  - destruct (lookup k m') as [v|] eqn:L'; [|reflexivity]. apply lookup_In in L'. apply (Permutation_in _ (Permutation_sym P)) in L'.
    apply (In_lookup _ _ _ N) in L'. congruence.
Qed.
Lemma values_of_pairs k m : NoDup (keys m) -> values_of k (pairs m) = match lookup k m with Some v => items v | None => [] end.
Proof.
  intros N. unfold pairs. pose proof (sort_perm m) as P.
  rewrite values_of_pairs_any by (eapply Permutation_NoDup; [apply Permutation_map, P|exact N]).
  now rewrite (perm_lookup k _ _ P N).
Qed.
Lemma encode_spec m k : NoDup (keys m) ->
  values_of k (read_query (encode m)) = match lookup k m with Some v => items v | None => [] end.
Proof. intros N. rewrite read_encode. now apply values_of_pairs. Qed.

(** ** Request objects *)
Lemma lookup_remove {V} k k' (m : smap V) : lookup k (remove_key k' m) = if String.eqb k k' then None else lookup k m.
Proof.
  unfold remove_key. induction m as [|[k2 v] m IH]; [now destruct (String.eqb k k')|]. cbn [filter fst lookup].
  destruct (String.eqb_spec k' k2) as [->|N]; cbn [negb].
  - rewrite IH. destruct (String.eqb k k2); reflexivity.
  - cbn [lookup]. rewrite IH. destruct (String.eqb_spec k k2) as [->|]; [|reflexivity].
    destruct (String.eqb_spec k2 k') as [->|]; [congruence|reflexivity].
Qed.
Lemma NoDup_remove_key {V} k (m : smap V) : NoDup (keys m) -> NoDup (keys (remove_key k m)).
Proof.
  unfold remove_key, keys. induction m as [|kv m IH]; intros N; [constructor|]. cbn in N. apply NoDup_cons_iff in N. destruct N as [N1 N2].
  cbn [filter]. destruct (negb (String.eqb k (fst kv))); [|now apply IH]. cbn [map]. constructor; [|now apply IH].
  intros I. apply N1. apply in_map_iff in I. destruct I as (y & E & I). apply filter_In in I. rewrite <- E. apply in_map. tauto.
Qed.
Lemma marshal_map_spec m : forall o, marshal_map m = Some o ->
  keys o = keys m /\ forall k, lookup k o = match lookup k m with Some j => j | None => None end.
Proof.
  induction m as [|[k v] m IH]; cbn [marshal_map]; intros o; [intros [= <-]; auto|].
  destruct v as [j|]; [|discriminate]. destruct (marshal_map m) as [o'|]; [|discriminate]. intros [= <-].
  destruct (IH o' eq_refl) as [K L]. unfold keys in *. cbn [map fst lookup]. split; [now rewrite K|].
  intros k'. destruct (String.eqb k' k); [reflexivity|apply L].
Qed.
Lemma marshal_map_total m : (forall k, lookup k m <> Some None) -> NoDup (keys m) -> exists o, marshal_map m = Some o.
Proof.
  induction m as [|[k v] m IH]; intros H N; [eexists; reflexivity|]. cbn in N. apply NoDup_cons_iff in N. destruct N as [N1 N2].
  destruct IH as [o O]; [|exact N2|].
  - intros k' E. apply (H k'). cbn [lookup]. destruct (String.eqb_spec k' k) as [->|]; [|exact E].
    destruct N1. apply lookup_In in E. now apply (in_map fst) in E.
  - cbn [marshal_map]. rewrite O. specialize (H k). cbn [lookup] in H. rewrite String.eqb_refl in H.
    destruct v; [eexists; reflexivity|congruence].
Qed.

Definition final_claims (x : oracles) (rp : producer) (m2 : smap (option json)) : smap (option json) :=
  insert "exp" (Some (jint (wrap64 (lo_now x + rp_lifetime rp)%Z))) (insert "iat" (Some (jint (lo_now x))) m2).
Definition with_jti (x : oracles) (m1 : smap (option json)) : option (smap (option json)) :=
  if has "jti" m1 then Some m1
  else match lo_uuid x with Some u => Some (insert "jti" (Some (JStr u)) m1) | None => None end.

Lemma wrap64_small n : (- 2 ^ 63 <= n < 2 ^ 63)%Z -> wrap64 n = n.
Proof. intros H. unfold wrap64. rewrite Z.mod_small; lia. Qed.

Lemma not_mandated k : ~ In k mandated -> forall c, In c mandated -> String.eqb k c = false.
Proof. intros N c I. destruct (String.eqb_spec k c) as [->|]; [contradiction|reflexivity]. Qed.

Lemma final_spec x rp m m2 o : NoDup (keys m) -> with_jti x (own_claims (rp_id rp) m) = Some m2 ->
  marshal_map (final_claims x rp m2) = Some o -> request_claims (rp_id rp) (lo_now x) (rp_lifetime rp) m o.
Proof.
  intros N J M. destruct (marshal_map_spec _ _ M) as [K L].
  assert (N1 : NoDup (keys (own_claims (rp_id rp) m))).
  { unfold own_claims. do 2 apply NoDup_remove_key. now do 2 apply keys_insert_NoDup. }
  assert (N2 : NoDup (keys m2)).
  { unfold with_jti in J. destruct (has "jti" (own_claims (rp_id rp) m)); [now injection J as <-|].
    destruct (lo_uuid x); [injection J as <-|discriminate]. now apply keys_insert_NoDup. }
  assert (L2 : forall k, k <> "jti" -> lookup k m2 = lookup k (own_claims (rp_id rp) m)).
  { intros k NK. unfold with_jti in J. destruct (has "jti" (own_claims (rp_id rp) m)); [now injection J as <-|].
    destruct (lo_uuid x); [injection J as <-|discriminate]. rewrite lookup_insert.
    destruct (String.eqb_spec k "jti"); [contradiction|reflexivity]. }
  assert (L1 : forall k, lookup k (own_claims (rp_id rp) m) =
    if String.eqb k "client_secret" then None else if String.eqb k "sub" then None
    else if String.eqb k "client_id" then Some (Some (JStr (rp_id rp)))
    else if String.eqb k "iss" then Some (Some (JStr (rp_id rp))) else lookup k m).
  { intros k. unfold own_claims. now rewrite !lookup_remove, !lookup_insert. }
  assert (L3 : forall k, lookup k (final_claims x rp m2) =
    if String.eqb k "exp" then Some (Some (jint (wrap64 (lo_now x + rp_lifetime rp)%Z)))
    else if String.eqb k "iat" then Some (Some (jint (lo_now x))) else lookup k m2).
  { intros k. unfold final_claims. now rewrite !lookup_insert. }
  unfold request_claims, producer_claims. split; [split; [|split; [|split; [|split; [|split; [|split; [|split]]]]]]|].
  - rewrite K. unfold final_claims. now do 2 apply keys_insert_NoDup.
  - rewrite L, L3. cbn [String.eqb Ascii.eqb Bool.eqb]. rewrite L2, L1 by discriminate. reflexivity.
  - rewrite L, L3. cbn [String.eqb Ascii.eqb Bool.eqb]. rewrite L2, L1 by discriminate. reflexivity.
  - rewrite L, L3. reflexivity.
  - intros R. rewrite L, L3. cbn [String.eqb Ascii.eqb Bool.eqb]. now rewrite wrap64_small.
  - rewrite L, L3. cbn [String.eqb Ascii.eqb Bool.eqb].
    assert (P : lookup "jti" m2 <> None).
    { unfold with_jti in J. destruct (has "jti" (own_claims (rp_id rp) m)) eqn:H.
      - injection J as <-. intros E. apply has_false in E. congruence.
      - destruct (lo_uuid x); [injection J as <-|discriminate]. rewrite lookup_insert. discriminate. }
    assert (Q : In "jti" (keys o)).
    { rewrite K. unfold final_claims. apply keys_insert_In. right. apply keys_insert_In. right.
      destruct (lookup "jti" m2) eqn:E; [|congruence]. apply lookup_In in E. now apply (in_map fst) in E. }
    specialize (L "jti"). rewrite L3 in L. cbn [String.eqb Ascii.eqb Bool.eqb] in L.
    destruct (lookup "jti" o) as [j|] eqn:E.
    + exists j. now rewrite <- L.
    + apply lookup_None in E. contradiction.
  - rewrite L, L3. cbn [String.eqb Ascii.eqb Bool.eqb]. rewrite L2, L1 by discriminate. reflexivity.
  - rewrite L, L3. cbn [String.eqb Ascii.eqb Bool.eqb]. rewrite L2, L1 by discriminate. reflexivity.
  - intros k NK. pose proof (not_mandated k NK) as E. rewrite L, L3, !E by (cbn; tauto).
    rewrite L2, L1, !E by (cbn; tauto || (intros ->; apply NK; cbn; tauto)). reflexivity.
Qed.

Lemma request_object_eq x rp h a m : nth_error h a = Some (CAny m) -> request_object x rp h (Some a) =
  if has "aud" m then
    match with_jti x (own_claims (rp_id rp) m) with
    | None => (Err, set_nth a (CAny (own_claims (rp_id rp) m)) h)
    | Some m2 =>
        (match marshal_map (final_claims x rp m2) with
         | Some o => match lo_sign x (JObj o) with Some jwt => Ok jwt | None => Err end
         | None => Err
         end, set_nth a (CAny (final_claims x rp m2)) h)
    end
  else (Err, h).
Proof.
  intros N. unfold request_object, with_jti, final_claims. rewrite N. destruct (has "aud" m); [|reflexivity].
  destruct (if has "jti" (own_claims (rp_id rp) m) then _ else _) as [m2|]; [|reflexivity].
  destruct (marshal_map _); [|reflexivity]. destruct (lo_sign x _); reflexivity.
Qed.

Lemma request_ok x rp h l m jwt h' : any_at h l m -> NoDup (keys m) -> request_object x rp h l = (Ok jwt, h') ->
  lookup "aud" m <> None /\
  exists o, lo_sign x (JObj o) = Some jwt /\ request_claims (rp_id rp) (lo_now x) (rp_lifetime rp) m o.
Proof.
  intros (a & -> & A) N R. rewrite (request_object_eq x rp h a m A) in R.
  destruct (has "aud" m) eqn:H; [|discriminate]. split; [intros E; apply has_false in E; congruence|].
  destruct (with_jti x (own_claims (rp_id rp) m)) as [m2|] eqn:J; [|discriminate].
  destruct (marshal_map (final_claims x rp m2)) as [o|] eqn:M; [|discriminate].
  destruct (lo_sign x (JObj o)) as [j|] eqn:S; [|discriminate]. injection R as -> _.
  exists o. split; [exact S|]. eapply final_spec; eauto.
Qed.

(** It succeeds whenever it can. *)
Lemma request_total x rp h l m : any_at h l m -> NoDup (keys m) -> lookup "aud" m <> None ->
  (forall k, lookup k m <> Some None) -> lo_uuid x <> None -> (forall o, lo_sign x (JObj o) <> None) ->
  exists jwt h', request_object x rp h l = (Ok jwt, h').
Proof.
  intros (a & -> & A) N U G I S. rewrite (request_object_eq x rp h a m A).
  destruct (has "aud" m) eqn:H; [|apply has_false in H; congruence].
  assert (N1 : NoDup (keys (own_claims (rp_id rp) m))).
  { unfold own_claims. do 2 apply NoDup_remove_key. now do 2 apply keys_insert_NoDup. }
  assert (G1 : forall k, lookup k (own_claims (rp_id rp) m) <> Some None).
  { intros k. unfold own_claims. rewrite !lookup_remove, !lookup_insert.
    destruct (String.eqb k "client_secret"), (String.eqb k "sub"), (String.eqb k "client_id"), (String.eqb k "iss"); try discriminate; apply G. }
  assert (J : exists m2, with_jti x (own_claims (rp_id rp) m) = Some m2 /\ NoDup (keys m2) /\ forall k, lookup k m2 <> Some None).
  { unfold with_jti. destruct (has "jti" (own_claims (rp_id rp) m)); [eauto|]. destruct (lo_uuid x) as [u|]; [|congruence].
    eexists. split; [reflexivity|]. split; [now apply keys_insert_NoDup|]. intros k. rewrite lookup_insert.
    destruct (String.eqb k "jti"); [discriminate|apply G1]. }
  destruct J as (m2 & -> & N2 & G2).
  destruct (marshal_map_total (final_claims x rp m2)) as [o ->].
  - intros k. unfold final_claims. rewrite !lookup_insert. destruct (String.eqb k "exp"), (String.eqb k "iat"); try discriminate; apply G2.
  - unfold final_claims. now do 2 apply keys_insert_NoDup.
  - destruct (lo_sign x (JObj o)) as [jwt|] eqn:E; [eauto|]. now destruct (S o).
Qed.

Lemma request_refused x rp h l : (forall m, any_at h l m -> lookup "aud" m = None) -> request_object x rp h l = (Err, h).
Proof.
  intros H. destruct l as [a|]; [|reflexivity]. unfold request_object. destruct (nth_error h a) as [[m|v]|] eqn:A; try reflexivity.
  assert (E : lookup "aud" m = None) by (apply H; exists a; auto). apply has_false in E. now rewrite E.
Qed.

(** ** Which maps change *)
Lemma set_nth_other {A} a b (x : A) : forall l, a <> b -> nth_error (set_nth a x l) b = nth_error l b.
Proof.
  revert b. induction a as [|a IH]; intros [|b] [|y l] N; cbn; try reflexivity; try lia. apply IH. lia.
Qed.
Lemma set_nth_length {A} a (x : A) : forall l, List.length (set_nth a x l) = List.length l.
Proof. induction a as [|a IH]; intros [|y l]; cbn; try reflexivity. now rewrite IH. Qed.
Lemma request_only x rp h a b : b <> a -> nth_error (snd (request_object x rp h (Some a))) b = nth_error h b.
Proof.
  intros N. unfold request_object. destruct (nth_error h a) as [[m|v]|]; try reflexivity.
  destruct (has "aud" m); [|reflexivity].
  destruct (if has "jti" (own_claims (rp_id rp) m) then _ else _) as [m2|]; [|cbn; apply set_nth_other; auto].
  destruct (marshal_map _); [|cbn; apply set_nth_other; auto]. destruct (lo_sign x _); cbn; apply set_nth_other; auto.
Qed.

(** ** Authorization requests *)
Lemma lookup_params (m : values) : forall acc, NoDup (keys m) -> (forall k, In k (keys m) -> lookup k acc = None) -> forall k,
  lookup k (fold_left (fun m kv => insert (fst kv) (param (snd kv)) m) m acc) =
  match lookup k m with Some v => Some (param v) | None => lookup k acc end.
Proof.
  induction m as [|[k0 v] m IH]; intros acc N F k; [reflexivity|]. cbn in N. apply NoDup_cons_iff in N. destruct N as [N1 N2].
  cbn [fold_left fst snd lookup]. rewrite IH; [|exact N2|].
  - destruct (String.eqb_spec k k0) as [->|NK].
    + destruct (lookup k0 m) as [w|] eqn:L; [destruct N1; apply lookup_In in L; now apply (in_map fst) in L|].
      rewrite lookup_insert, String.eqb_refl. reflexivity.
    + destruct (lookup k m); [reflexivity|]. rewrite lookup_insert. destruct (String.eqb_spec k k0); [contradiction|reflexivity].
  - intros k' I. rewrite lookup_insert. destruct (String.eqb_spec k' k0) as [->|]; [contradiction|]. apply F. now right.
Qed.
Lemma params_nodup (m : values) : forall acc, NoDup (keys acc) ->
  NoDup (keys (fold_left (fun m kv => insert (fst kv) (param (snd kv)) m) m acc)).
Proof. induction m as [|kv m IH]; intros acc N; [exact N|]. cbn [fold_left]. apply IH. now apply keys_insert_NoDup. Qed.
Lemma param_claim v : param v = Some (as_claim v).
Proof. destruct v as [[|x [|y l]]|]; reflexivity. Qed.

Definition authorization_map (op : emeta) (redirect state scope : string) (add : values) : smap (option json) :=
  insert "scope" (Some (JStr scope)) (insert "response_type" (Some (JStr "code"))
    (insert "state" (Some (JStr state)) (insert "redirect_uri" (Some (JStr redirect))
      (insert "aud" (Some (JStr (op_str "Issuer" op)))
        (fold_left (fun m kv => insert (fst kv) (param (snd kv)) m) add []))))).
Lemma authorization_nodup op redirect state scope add : NoDup (keys (authorization_map op redirect state scope add)).
Proof. unfold authorization_map. do 5 apply keys_insert_NoDup. apply params_nodup. constructor. Qed.
Lemma authorization_spec op redirect state scope add id now life o : NoDup (keys add) ->
  request_claims id now life (authorization_map op redirect state scope add) o ->
  authorization_claims (op_str "Issuer" op) redirect state scope add o.
Proof.
  intros N [_ R].
  assert (L : forall k, lookup k (authorization_map op redirect state scope add) =
    if String.eqb k "scope" then Some (Some (JStr scope)) else if String.eqb k "response_type" then Some (Some (JStr "code"))
    else if String.eqb k "state" then Some (Some (JStr state)) else if String.eqb k "redirect_uri" then Some (Some (JStr redirect))
    else if String.eqb k "aud" then Some (Some (JStr (op_str "Issuer" op))) else option_map (fun v => Some (as_claim v)) (lookup k add)).
  { intros k. unfold authorization_map. rewrite !lookup_insert, lookup_params; [|exact N|reflexivity].
    destruct (lookup k add) as [v|]; cbn [option_map lookup]; [now rewrite param_claim|reflexivity]. }
  unfold authorization_claims. repeat (split; [rewrite R, L; [reflexivity|cbn; intuition discriminate]|]).
  intros k NK. rewrite R; [|intros I; apply NK; apply in_or_app; now right].
  assert (E : forall c, In c ["aud"; "redirect_uri"; "state"; "scope"; "response_type"] -> String.eqb k c = false).
  { intros c I. destruct (String.eqb_spec k c) as [->|]; [|reflexivity]. destruct NK. apply in_or_app. now left. }
  rewrite L, !E by (cbn; tauto). destruct (lookup k add); reflexivity.
Qed.

Lemma nth_last {A} (h : list A) x : nth_error (h ++ [x])%list (List.length h) = Some x.
Proof. rewrite nth_error_app2, Nat.sub_diag by lia. reflexivity. Qed.
Lemma request_preserves x rp h m : preserved h (snd (request_object x rp (h ++ [CAny m])%list (Some (List.length h)))).
Proof.
  intros a A. rewrite request_only by lia. now apply nth_error_app1.
Qed.

Lemma append_assoc a b c : ((a ++ b) ++ c)%string = (a ++ b ++ c)%string.
Proof. induction a as [|x a IH]; [reflexivity|]. cbn. now rewrite IH. Qed.
Lemma url_parts base q frag : free "?" base = true -> free "#" base = true -> free "?" q = true -> free "#" q = true -> q <> "" ->
  let u := url_string (PUrl base q frag) in base_of u = base /\ query_of u = q /\ fragment_of u = frag.
Proof.
  intros B1 B2 Q1 Q2 NQ. unfold url_string. cbn [pu_base pu_query pu_frag].
  destruct (String.eqb_spec q ""); [contradiction|].
  assert (BQ : free "#" (base ++ String "?" q) = true) by (rewrite free_app, B2; cbn [free]; now rewrite Q2).
  change ("?" ++ q) with (String "?" q).
  assert (E : exists u, base ++ String "?" q ++ (if String.eqb frag "" then "" else "#" ++ frag) = u /\ cut "#" u = (base ++ String "?" q, frag)).
  { eexists. split; [reflexivity|]. rewrite <- append_assoc.
    change ("#" ++ frag) with (String "#" frag).
    destruct (String.eqb_spec frag "") as [->|].
    - rewrite cut_app_free by exact BQ. cbn [cut fst snd].
      assert (Z : forall s, s ++ "" = s) by (induction s as [|? ? IHs]; [reflexivity|cbn; now rewrite IHs]). now rewrite Z.
    - now rewrite cut_app. }
  destruct E as (u & E & C). cbn zeta. unfold base_of, query_of, fragment_of.
  match goal with |- context [cut "#" ?v] => replace v with u end.
  rewrite C. cbn [fst snd]. rewrite cut_app by exact B1. auto.
Qed.
Lemma encode_nonempty k v m : lookup k m = Some (Some [v]) -> NoDup (keys m) -> encode m <> "".
Proof.
  intros L N E. pose proof (encode_spec m k N) as S. rewrite E, L in S. discriminate.
Qed.

Lemma authorization_ok fuel e p x f h issuer redirect state scope additional url h' :
  keeps_base (lo_canon x) -> NoDup (keys (read_values h additional)) ->
  get_authorization_url fuel e p x f h issuer redirect state scope additional = (Done (Ok url), h') ->
  exists op ro o, resolve_op fuel e p (lf_anchors f) issuer = Done (Ok (Some op)) /\ lo_sign x (JObj o) = Some ro /\
    producer_claims (rp_id (lf_producer f)) (lo_now x) (rp_lifetime (lf_producer f)) o /\
    authorization_claims (op_str "Issuer" op) redirect state scope (read_values h additional) o /\
    lo_canon x (base_of (op_str "AuthorizationEndpoint" op)) = Some (base_of url) /\
    fragment_of url = fragment_of (op_str "AuthorizationEndpoint" op) /\
    forall k, values_of k (read_query (query_of url)) = url_params (lf_id f) redirect scope ro k.
Proof.
  intros KB N. unfold get_authorization_url.
  destruct (resolve_op fuel e p (lf_anchors f) issuer) as [[[op|]| |]|]; try discriminate.
  fold (authorization_map op redirect state scope (read_values h additional)).
  destruct (request_object x (lf_producer f) _ _) as [r h1] eqn:R. destruct r as [ro| |]; try discriminate.
  destruct (url_parse (lo_canon x) (op_str "AuthorizationEndpoint" op)) as [u|] eqn:U; [|discriminate].
  set (q := vset "scope" scope _). intros [= <- <-].
  edestruct (request_ok x (lf_producer f)) as (_ & o & S & C); [| |exact R|].
  { exists (List.length h). split; [reflexivity|]. apply nth_last. }
  { apply authorization_nodup. }
  exists op, ro, o. split; [reflexivity|]. split; [exact S|]. split; [apply C|]. split; [eapply authorization_spec; eauto|].
  unfold url_parse in U. destruct (cut "#" (op_str "AuthorizationEndpoint" op)) as [rest frag] eqn:C1.
  destruct (cut "?" rest) as [base qq] eqn:C2. destruct (lo_canon x base) as [b|] eqn:CB; [|discriminate]. injection U as <-.
  cbn [pu_base pu_frag]. destruct (KB base b CB) as [F1 F2]. apply cut_same_free in F1, F2.
  assert (NQ : NoDup (keys q)) by (unfold q, vset; do 5 apply keys_insert_NoDup; constructor).
  assert (NE : encode q <> "").
  { apply (encode_nonempty "scope" scope); [|exact NQ]. unfold q, vset. rewrite lookup_insert. reflexivity. }
  destruct (url_parts b (encode q) frag F1 F2 (encode_free "?" q (or_intror eq_refl)) (encode_free "#" q (or_introl eq_refl)) NE) as (P1 & P2 & P3).
  rewrite P1, P2, P3. unfold base_of at 1, fragment_of. rewrite C1. cbn [fst snd]. rewrite C2. split; [exact CB|]. split; [reflexivity|].
  intros k. rewrite encode_spec by exact NQ. unfold q, vset, url_params. rewrite !lookup_insert. cbn [lookup].
  destruct (String.eqb_spec k "scope") as [->|]; [reflexivity|]. destruct (String.eqb_spec k "redirect_uri") as [->|]; [reflexivity|].
  destruct (String.eqb_spec k "response_type") as [->|]; [reflexivity|]. destruct (String.eqb_spec k "client_id") as [->|]; [reflexivity|].
  destruct (String.eqb_spec k "request") as [->|]; reflexivity.
Qed.

Lemma authorization_preserves fuel e p x f h issuer redirect state scope additional :
  preserved h (snd (get_authorization_url fuel e p x f h issuer redirect state scope additional)).
Proof.
  unfold get_authorization_url. destruct (resolve_op fuel e p (lf_anchors f) issuer) as [[[op|]| |]|]; try (intros a _; reflexivity).
  fold (authorization_map op redirect state scope (read_values h additional)).
  pose proof (request_preserves x (lf_producer f) h (authorization_map op redirect state scope (read_values h additional))) as P.
  destruct (request_object x (lf_producer f) _ _) as [r h1]. destruct r; try exact P. destruct (url_parse _ _); exact P.
Qed.

(** ** Code exchange *)
Lemma assertion_ok x rp aud jwt : client_assertion x rp aud = Ok jwt ->
  exists o, lo_sign x (JObj o) = Some jwt /\ assertion_claims (rp_id rp) aud (lo_now x) (rp_lifetime rp) o.
Proof.
  unfold client_assertion. destruct (lo_uuid x) as [u|]; [|discriminate].
  match goal with |- context [JObj ?o] => set (l := o) end. destruct (lo_sign x (JObj l)) as [j|] eqn:S; [|discriminate]. intros [= ->].
  exists l. split; [exact S|]. unfold assertion_claims, l. split.
  - cbn. repeat constructor; cbn; intuition discriminate.
  - repeat (split; [reflexivity|]). split; [|exists u; reflexivity]. intros R.
    cbn [lookup String.eqb Ascii.eqb Bool.eqb]. now rewrite wrap64_small.
Qed.

Lemma exchange_ok fuel e p x f h issuer code redirect additional r h' : NoDup (keys (read_values h additional)) ->
  code_exchange fuel e p x f h issuer code redirect additional = (Done (Ok r), h') ->
  exists op jwt o form body, resolve_op fuel e p (lf_anchors f) issuer = Done (Ok (Some op)) /\
    lo_sign x (JObj o) = Some jwt /\
    assertion_claims (rp_id (lf_producer f)) (op_str "TokenEndpoint" op) (lo_now x) (rp_lifetime (lf_producer f)) o /\
    lo_post x (op_str "TokenEndpoint" op) form = Some body /\
    (forall k, values_of k (read_query form) = token_params (lf_id f) code redirect jwt (read_values h additional) k) /\
    match r with
    | Refused vs => exists er, er <> "" /\ unmarshal error_fields body = Ok vs /\ hd_error vs = Some (GStr er)
    | Tokens ts ex => unmarshal_with_extra token_fields body (zeros token_fields) = Ok (ts, ex) /\
        exists vs, unmarshal error_fields body = Ok vs /\ hd_error vs = Some (GStr "")
    end.
Proof.
  intros N. unfold code_exchange. destruct (resolve_op fuel e p (lf_anchors f) issuer) as [[[op|]| |]|]; try discriminate.
  destruct (client_assertion x (lf_producer f) (op_str "TokenEndpoint" op)) as [jwt| |] eqn:CA; try discriminate.
  destruct (assertion_ok _ _ _ _ CA) as (o & S & C).
  set (m2 := vset "client_assertion" jwt _). destruct (lo_post x (op_str "TokenEndpoint" op) (encode m2)) as [body|] eqn:P; [|discriminate].
  intros R. exists op, jwt, o, (encode m2), body. split; [reflexivity|]. split; [exact S|]. split; [exact C|]. split; [exact P|]. split.
  - intros k. assert (N2 : NoDup (keys m2)) by (unfold m2, vset; now do 6 apply keys_insert_NoDup).
    rewrite encode_spec by exact N2. unfold m2, vset, token_params. rewrite !lookup_insert.
    destruct (String.eqb_spec k "client_assertion") as [->|]; [reflexivity|].
    destruct (String.eqb_spec k "client_assertion_type") as [->|]; [reflexivity|].
    destruct (String.eqb_spec k "client_id") as [->|]; [reflexivity|]. destruct (String.eqb_spec k "redirect_uri") as [->|]; [reflexivity|].
    destruct (String.eqb_spec k "code") as [->|]; [reflexivity|]. destruct (String.eqb_spec k "grant_type") as [->|]; reflexivity.
  - destruct (unmarshal error_fields body) as [vs| |] eqn:U; try discriminate.
    destruct vs as [|v vs]; [discriminate|]. destruct v as [er| | | |]; try discriminate.
    destruct (String.eqb_spec er "") as [->|NE].
    + destruct (unmarshal_with_extra token_fields body (zeros token_fields)) as [[ts ex]| |]; try discriminate. injection R as <- _.
      split; [reflexivity|]. exists (GStr "" :: vs). split; reflexivity.
    + injection R as <- _. exists er. repeat split. exact NE.
Qed.
Lemma exchange_only fuel e p x f h issuer code redirect additional b : additional <> Some b ->
  nth_error (snd (code_exchange fuel e p x f h issuer code redirect additional)) b = nth_error h b.
Proof.
  intros N. unfold code_exchange. destruct (resolve_op fuel e p (lf_anchors f) issuer) as [[op| |]|]; try reflexivity.
  assert (P : forall m, nth_error (match additional with Some a => set_nth a (CVals m) h | None => h end) b = nth_error h b).
  { intros m. destruct additional as [a|]; [|reflexivity]. apply set_nth_other. congruence. }
  destruct op as [op|]; [|apply P]. destruct (client_assertion _ _ _); apply P.
Qed.
Lemma exchange_preserves_nil fuel e p x f h issuer code redirect :
  preserved h (snd (code_exchange fuel e p x f h issuer code redirect None)).
Proof. intros a _. apply exchange_only. discriminate. Qed.

(** ** Panics *)
Lemma request_no_panic x rp h l : fst (request_object x rp h l) <> Panic.
Proof.
  unfold request_object. destruct l as [a|]; [|discriminate]. destruct (nth_error h a) as [[m|v]|]; try discriminate.
  destruct (has "aud" m); [|discriminate]. destruct (if has "jti" (own_claims (rp_id rp) m) then _ else _) as [m2|]; [|discriminate].
  destruct (marshal_map _); [|discriminate]. destruct (lo_sign x _); discriminate.
Qed.
Lemma authorization_panics fuel e p x f h issuer redirect state scope l :
  fst (get_authorization_url fuel e p x f h issuer redirect state scope l) = Done Panic <->
  resolve_op fuel e p (lf_anchors f) issuer = Done Panic \/ resolve_op fuel e p (lf_anchors f) issuer = Done (Ok None).
Proof.
  unfold get_authorization_url. destruct (resolve_op fuel e p (lf_anchors f) issuer) as [[[op|]| |]|]; cbn [fst];
    try (split; [discriminate|intros [H|H]; discriminate]); try tauto.
  fold (authorization_map op redirect state scope (read_values h l)).
  pose proof (request_no_panic x (lf_producer f) (h ++ [CAny (authorization_map op redirect state scope (read_values h l))])%list (Some (List.length h))) as P.
  split; [|intros [H|H]; discriminate].
  destruct (request_object x (lf_producer f) _ _) as [[ro| |] h1]; cbn [fst] in *; try discriminate; [|congruence].
  destruct (url_parse _ _); discriminate.
Qed.
Lemma exchange_panics fuel e p x f h issuer code redirect l :
  fst (code_exchange fuel e p x f h issuer code redirect l) = Done Panic <->
  resolve_op fuel e p (lf_anchors f) issuer = Done Panic \/ resolve_op fuel e p (lf_anchors f) issuer = Done (Ok None).
Proof.
  unfold code_exchange. destruct (resolve_op fuel e p (lf_anchors f) issuer) as [[[op|]| |]|]; cbn [fst];
    try (split; [discriminate|intros [H|H]; discriminate]); try tauto.
  split; [|intros [H|H]; discriminate]. unfold client_assertion. destruct (lo_uuid x); [|discriminate].
  destruct (lo_sign x _); [|discriminate]. cbn [fst]. destruct (lo_post x _ _) as [body|]; [|discriminate].
  destruct (unmarshal error_fields body) as [[|[er| | | |] vs]| |]; try discriminate.
  destruct (String.eqb er ""); [|discriminate]. destruct (unmarshal_with_extra _ _ _) as [[ts ex]| |]; discriminate.
Qed.

Lemma authorization_rest fuel e p x f h issuer redirect state scope additional url h' :
  keeps_base (lo_canon x) -> NoDup (keys (read_values h additional)) ->
  get_authorization_url fuel e p x f h issuer redirect state scope additional = (Done (Ok url), h') ->
  exists op, resolve_op fuel e p (lf_anchors f) issuer = Done (Ok (Some op)) /\
    lo_canon x (base_of (op_str "AuthorizationEndpoint" op)) = Some (base_of url) /\
    fragment_of url = fragment_of (op_str "AuthorizationEndpoint" op).
Proof.
  intros K N G. destruct (authorization_ok _ _ _ _ _ _ _ _ _ _ _ _ _ K N G) as (op & ro & o & R & _ & _ & _ & B & F & _). eauto.
Qed.
Lemma exchange_tokens fuel e p x f h issuer code redirect additional ts ex h' : NoDup (keys (read_values h additional)) ->
  code_exchange fuel e p x f h issuer code redirect additional = (Done (Ok (Tokens ts ex)), h') ->
  exists ep form body vs, lo_post x ep form = Some body /\ unmarshal error_fields body = Ok vs /\ hd_error vs = Some (GStr "") /\
    unmarshal_with_extra token_fields body (zeros token_fields) = Ok (ts, ex).
Proof.
  intros N G. destruct (exchange_ok _ _ _ _ _ _ _ _ _ _ _ _ N G) as (op & jwt & o & form & body & _ & _ & _ & P & _ & U & vs & V & H).
  exists (op_str "TokenEndpoint" op), form, body, vs. auto.
Qed.
