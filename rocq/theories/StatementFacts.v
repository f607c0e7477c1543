(** Decoding of entity statements gives what the claims say. *)
From Coq Require Import QArith Qround Lia.
From Coq Require Qcanon.
From Verif Require Import Base BaseFacts GoVal Policy Schema OpFacts Metadata SpecPolicy SpecMetadata MetadataFacts Chain FloatTime SpecTime Json SpecJson JsonFacts
  TrustMark Leaf LeafFacts Config SpecDecode DecodeFacts DecodeLaws Statement SpecStatement.
From Verif Require Import GoVal.
Local Open Scope nat_scope.
Local Open Scope string_scope.

(** ** Maps *)
Lemma last_map_gen {A} (o : list (string * A)) : forall m, NoDup (keys m) ->
  let r := fold_left (fun m kv => insert (fst kv) (snd kv) m) o m in
  NoDup (keys r) /\ forall k, lookup k r = match lookup k (rev o) with Some v => Some v | None => lookup k m end.
Proof.
  induction o as [|[k' v] o IH]; intros m N; cbn [fold_left rev fst snd]; [split; auto|].
  destruct (IH (insert k' v m) (keys_insert_NoDup _ _ _ N)) as [N' L]. split; [exact N'|]. intros k. rewrite L.
  assert (E : forall (l : smap A), lookup k (l ++ [(k', v)])%list = match lookup k l with Some x => Some x | None => if String.eqb k k' then Some v else None end).
  { intros l. induction l as [|[a b] l IHl]; cbn [lookup app]; [reflexivity|]. destruct (String.eqb k a); auto. }
  rewrite E, lookup_insert. destruct (lookup k (rev o)); [reflexivity|].
  destruct (String.eqb_spec k k'), (String.eqb_spec k' k); congruence.
Qed.
Lemma last_map_NoDup {A} (o : list (string * A)) : NoDup (keys (last_map o)).
Proof. apply (last_map_gen o []). constructor. Qed.
Lemma lookup_last_map {A} (o : list (string * A)) k : lookup k (last_map o) = lookup k (rev o).
Proof. unfold last_map. destruct (last_map_gen o [] (NoDup_nil _)) as [_ ->]. cbn. now destruct (lookup k (rev o)). Qed.
Lemma lookup_map {A B} (f : A -> B) (m : smap A) k : lookup k (map (fun kv => (fst kv, f (snd kv))) m) = option_map f (lookup k m).
Proof. induction m as [|[a b] m IH]; cbn; [reflexivity|]. destruct (String.eqb k a); auto. Qed.
Lemma keys_map {A B} (f : A -> B) (m : smap A) : keys (map (fun kv => (fst kv, f (snd kv))) m) = keys m.
Proof. unfold keys. rewrite map_map. reflexivity. Qed.
Lemma lookup_last_mapped {A B} (f : A -> B) (o : list (string * A)) k :
  lookup k (last_map (map (fun kv => (fst kv, f (snd kv))) o)) = option_map f (lookup k (rev o)).
Proof. rewrite lookup_last_map, <- map_rev. apply lookup_map. Qed.

(** ** Documents *)
Lemma json_rect' (P : json -> Prop) :
  P JNull -> (forall b, P (JBool b)) -> (forall q, P (JNum q)) -> (forall s, P (JStr s)) ->
  (forall l, Forall P l -> P (JArr l)) -> (forall o, Forall (fun kv => P (snd kv)) o -> P (JObj o)) -> forall j, P j.
Proof.
  intros Hn Hb Hq Hs Ha Ho. fix IH 1. intros [|b|q|s|l|o]; [exact Hn|apply Hb|apply Hq|apply Hs| |].
  - apply Ha. induction l as [|x l IHl]; constructor; [apply IH|exact IHl].
  - apply Ho. induction o as [|[k x] o IHl]; constructor; [apply IH|exact IHl].
Qed.

Lemma plain_member t j x : plain j -> In x (members t j) -> plain x.
Proof.
  intros P I. destruct j as [| | | | |o]; try destruct I. inversion P as [| | | | |o' N F]; subst. cbn [members] in I.
  apply in_map_iff in I as ([k y] & <- & I). apply filter_In in I as [I _]. rewrite Forall_forall in F. exact (F _ I).
Qed.
Lemma plain_claim k o y : plain (JObj o) -> lookup k (rev o) = Some y -> plain y.
Proof.
  intros P L. inversion P as [| | | | |o' N F]; subst. apply lookup_In in L. apply in_rev in L.
  rewrite Forall_forall in F. exact (F _ L).
Qed.
Lemma plain_keys o : plain (JObj o) -> NoDup (keys o).
Proof. intros P. inversion P as [| | | | |o' N F]; subst. now apply NoDup_map_inv in N. Qed.
Lemma plain_members t j : plain j -> exists x, members t j = [] \/ members t j = [x].
Proof.
  intros P. destruct j as [| | | | |o]; try (exists JNull; left; reflexivity). cbn [members]. inversion P as [| | | | |o' N F]; subst.
  clear P F. induction o as [|[k y] o IH]; cbn [filter fst]; [exists JNull; now left|].
  cbn [keys map fst] in N. inversion N as [|? ? Hn N']; subst.
  destruct (String.eqb_spec (fold_name k) (fold_name t)) as [E|].
  - exists y. right. cbn [map snd]. f_equal.
    assert (Z : filter (fun kv : string * json => String.eqb (fold_name (fst kv)) (fold_name t)) o = []).
    { clear -Hn E. induction o as [|[k' y'] o IHo]; [reflexivity|]. cbn [filter fst].
      destruct (String.eqb_spec (fold_name k') (fold_name t)) as [E'|].
      - exfalso. apply Hn. cbn. left. now rewrite E, E'.
      - apply IHo. intros I. apply Hn. cbn. now right. }
    now rewrite Z.
  - apply IH. exact N'.
Qed.

(** ** Reading a value *)
Definition yields {A} (dec : json -> res A) (x : json) (a : A) : Prop := dec x = Ok a.
Definition reads {A} (dec : json -> res A) (means : json -> A -> Prop) (x : json) : Prop :=
  (forall a, dec x = Ok a -> means x a) /\ ((exists a, means x a) -> exists a, dec x = Ok a).

Lemma dec_seq_value {A} (wrap : A -> sval) zero (dec : json -> res A) l : forall a0 v,
  dec_seq (value_codec wrap zero dec) (wrap a0) l = Ok v <->
  exists a, v = wrap a /\ (forall x, In x l -> exists b, dec x = Ok b) /\ match rev l with [] => a = a0 | x :: _ => dec x = Ok a end.
Proof.
  induction l as [|j l IH]; intros a0 v; cbn [dec_seq].
  - split; [intros [= <-]; exists a0; split; [reflexivity|split; [intros x []|reflexivity]]|intros (a & -> & _ & E); cbn in E; now subst].
  - unfold value_codec at 1. cbn [c_dec]. destruct (dec j) as [b| |] eqn:D; cbn [bind].
    + fold (value_codec wrap zero dec). rewrite IH. cbn [rev]. split; intros (a & -> & H & E); exists a; (split; [reflexivity|split]).
      * intros x [<-|I]; eauto.
      * destruct (rev l); cbn; [now subst|exact E].
      * intros x I. apply H. now right.
      * destruct (rev l); cbn in *; [congruence|exact E].
    + split; [discriminate|]. intros (a & _ & H & _). destruct (H j (or_introl eq_refl)) as [b E]. congruence.
    + split; [discriminate|]. intros (a & _ & H & _). destruct (H j (or_introl eq_refl)) as [b E]. congruence.
Qed.
Lemma value_field {A} j t om (wrap : A -> sval) zero dec v :
  field_says j (JField t om (value_codec wrap zero dec)) v <-> exists a, v = wrap a /\ says (yields dec) zero j t a.
Proof. unfold field_says, says, yields. cbn [f_codec f_tag]. change (c_zero (value_codec wrap zero dec)) with (wrap zero). apply dec_seq_value. Qed.

Lemma dec_seq_words l : forall s s', dec_seq text_codec (SStr s) l = Ok s' <->
  Forall (fun x => x = JNull \/ exists t, x = JStr t) l /\ s' = SStr (last (texts l) s).
Proof.
  induction l as [|j l IH]; intros s s'; cbn [dec_seq texts flat_map last].
  - split; [intros [= <-]; auto|intros [_ ->]; reflexivity].
  - cbn [c_dec text_codec]. destruct j; cbn [dec_str bind]; try (split; [discriminate|intros [H _]; inversion H as [|? ? [E|[t E]] _]; discriminate E]).
    + rewrite IH. cbn [app]. split; intros [H ->]; (split; [|reflexivity]); [constructor; auto|now inversion H].
    + rewrite IH. fold (texts l). cbn [app]. rewrite last_cons. split; intros [H ->]; (split; [|reflexivity]); [constructor; eauto|now inversion H].
Qed.
Lemma words_field j t om v : field_says j (JField t om text_codec) v <-> exists s, v = SStr s /\ says_text j t s.
Proof.
  unfold field_says, says_text. cbn [f_codec f_tag c_zero text_codec]. fold text_codec. rewrite dec_seq_words. split.
  - intros [H ->]. eauto.
  - intros (s & -> & H & ->). auto.
Qed.

Lemma says_to {A} (dec : json -> res A) means zero j t a :
  (forall x, In x (members t j) -> reads dec means x) -> says (yields dec) zero j t a -> says means zero j t a.
Proof.
  intros R [H E]. split.
  - intros x I. destruct (H x I) as [b D]. exists b. now apply (R x I).
  - destruct (rev (members t j)) as [|x r] eqn:V; [exact E|]. apply R; [|exact E]. apply in_rev. rewrite V. now left.
Qed.
Lemma says_from {A} (dec : json -> res A) means zero j t a :
  (forall x, In x (members t j) -> reads dec means x) -> says means zero j t a -> exists b, says (yields dec) zero j t b.
Proof.
  intros R [H E]. assert (K : forall x, In x (members t j) -> exists b, yields dec x b).
  { intros x I. destruct (H x I) as [b M]. apply (R x I). eauto. }
  unfold says. destruct (rev (members t j)) as [|x r] eqn:V; [exists zero; auto|].
  destruct (K x) as [b D]; [apply in_rev; rewrite V; now left|]. exists b. auto.
Qed.
(** Reading and then converting. *)
Lemma says_map {A B} (f : A -> B) means zero j t a :
  says means zero j t a -> says (fun x b => exists a, means x a /\ b = f a) (f zero) j t (f a).
Proof.
  intros [H E]. split.
  - intros x I. destruct (H x I) as [b M]. eauto.
  - destruct (rev (members t j)); [now subst|eauto].
Qed.
Lemma says_weaken {A} (m1 m2 : json -> A -> Prop) zero j t a :
  (forall x b, m1 x b -> m2 x b) -> says m1 zero j t a -> says m2 zero j t a.
Proof.
  intros W [H E]. split; [intros x I; destruct (H x I) as [b M]; eauto|]. destruct (rev (members t j)); auto.
Qed.

(** ** The kinds of values *)
Lemma reads_names x : reads dec_names text_list x.
Proof.
  unfold reads, dec_names, text_list. split.
  - intros a H. destruct x as [| | | |l|]; try discriminate; [injection H as <-; reflexivity|].
    apply bind_ok in H as (r & D & [= <-]). exists l. split; [reflexivity|]. revert r D.
    induction l as [|y l IH]; intros r D; cbn [dec_strs] in D; [injection D as <-; constructor|].
    apply bind_ok in D as (s & Ds & D). apply bind_ok in D as (r' & Dr & [= <-]). constructor; [|now apply IH].
    destruct y; try discriminate; injection Ds as <-; [right|left]; auto.
  - intros [[l|] H]; [|subst; eauto]. destruct H as (xs & -> & F).
    assert (D : exists r, dec_strs xs = Ok r).
    { clear -F. induction F as [|y s ys ss E F [r IH]]; [exists []; reflexivity|]. cbn [dec_strs].
      destruct E as [-> | [-> ->]]; cbn [dec_str bind]; rewrite IH; cbn [bind]; eauto. }
    destruct D as [r ->]. cbn. eauto.
Qed.
Lemma reads_time x : reads dec_time (fun x t => null_or_number x /\ t = instant x) x.
Proof.
  unfold reads, null_or_number. split.
  - intros a H. destruct x; try discriminate; injection H as <-; cbn; eauto.
  - intros [a [[-> | [q ->]] _]]; cbn; eauto.
Qed.
Lemma says_time_iff j t a : says (yields dec_time) zero_time j t a <-> says_time j t a.
Proof.
  unfold says, says_time, yields. assert (L : forall l : list json, Forall null_or_number l <-> forall x, In x l -> exists b, dec_time x = Ok b).
  { intros l. rewrite Forall_forall. split; intros H x I; specialize (H x I).
    - destruct H as [-> | [q ->]]; cbn; eauto.
    - destruct H as [b D]. unfold null_or_number. destruct x; try discriminate; eauto. }
  rewrite <- L. split; intros [F E]; (split; [exact F|]).
  - destruct (rev (members t j)) as [|x r] eqn:V.
    + apply (f_equal (@rev _)) in V. rewrite rev_involutive in V. now rewrite V.
    + apply (f_equal (@rev _)) in V. rewrite rev_involutive in V. cbn in V. rewrite V, map_app. cbn [map]. rewrite last_last.
      destruct x; try discriminate; injection E as <-; reflexivity.
  - subst a. destruct (rev (members t j)) as [|x r] eqn:V.
    + apply (f_equal (@rev _)) in V. rewrite rev_involutive in V. now rewrite V.
    + apply (f_equal (@rev _)) in V. rewrite rev_involutive in V. cbn in V. rewrite V in *. rewrite map_app. cbn [map]. rewrite last_last.
      rewrite Forall_forall in F. destruct (F x) as [-> | [q ->]]; [apply in_or_app; right; now left| |]; reflexivity.
Qed.
Lemma reads_ptr {A} (dec : json -> res A) means x : (x <> JNull -> reads dec means x) -> reads (dec_ptr dec) (optional means) x.
Proof.
  intros R. unfold reads, dec_ptr, optional. split.
  - intros a H. assert (N : x = JNull \/ x <> JNull) by (destruct x; auto; right; discriminate).
    destruct N as [-> | N]; [injection H as <-; reflexivity|].
    assert (H' : bind (dec x) (fun y => Ok (Some y)) = Ok a) by (destruct x; auto; congruence).
    apply bind_ok in H' as (b & D & [= <-]). split; [exact N|]. now apply (R N).
  - intros [[b|] H]; [|subst; eauto]. destruct H as [N M]. destruct (proj2 (R N)) as [c D]; [eauto|].
    exists (Some c). destruct x; try congruence; rewrite D; reflexivity.
Qed.
Lemma int_canon q z : (q == inject_Z z)%Q -> Qnum (Qred q) = z.
Proof.
  intros E. assert (Q : Qred q = inject_Z z); [|now rewrite Q].
  rewrite (Qred_complete _ _ E). apply Qcanon.Qred_iff. apply Z.gcd_1_r.
Qed.
Lemma reads_int x : reads dec_int an_int x.
Proof.
  unfold reads, dec_int, an_int. split.
  - intros a H. destruct x as [| |q| | |]; try discriminate. destruct (_ && _)%bool eqn:C; [|discriminate]. injection H as <-.
    apply int_condition in C as (q' & z & [= <-] & E & R). exists q. rewrite (int_canon _ _ E). auto.
  - intros (z & q & -> & E & R). assert (C : int64 (JNum q)) by (exists q, z; auto). apply int_condition in C. rewrite C. eauto.
Qed.
Lemma reads_keys kc x : reads (dec_keys kc) (key_set kc) x.
Proof.
  unfold reads, dec_keys, key_set. split.
  - intros a H. assert (N : x = JNull \/ x <> JNull) by (destruct x; auto; right; discriminate).
    destruct N as [-> | N]; [injection H as <-; now left|].
    assert (H' : match kc_dec kc x with None => Err | Some k => Ok (if Nat.eqb (kc_len kc k) 0 then None else Some k) end = Ok a) by (destruct x; auto; congruence).
    destruct (kc_dec kc x) as [k|]; [|discriminate]. injection H' as <-. destruct (Nat.eqb_spec (kc_len kc k) 0); [right; eauto|auto].
  - intros [[k|] H].
    + destruct H as (N & D & L). exists (Some k). destruct x; try congruence; rewrite D; (destruct (Nat.eqb_spec (kc_len kc k) 0); [contradiction|reflexivity]).
    + destruct H as [-> | (k & D & L)]; [eauto|]. destruct x; rewrite ?D; eauto.
Qed.
Lemma map_res_reads {A B} (dec : A -> res B) l : (forall x, In x l -> exists a, dec x = Ok a) -> exists r, map_res dec l = Ok r.
Proof.
  induction l as [|x l IH]; intros H; [exists []; reflexivity|]. destruct (H x (or_introl eq_refl)) as [a D].
  destruct IH as [r R]; [intros y I; apply H; now right|]. exists (a :: r). cbn [map_res]. now rewrite D, R.
Qed.
Lemma reads_map {A} (dec : json -> res A) means x :
  (forall o kv, x = JObj o -> In kv o -> reads dec means (snd kv)) -> reads (dec_map dec) (a_map means) x.
Proof.
  intros R. unfold reads, dec_map, a_map, is_object. split.
  - intros m H. destruct x as [| | | | |o]; try discriminate.
    + injection H as <-. split; [now left|]. split; [constructor|]. split; [discriminate|]. reflexivity.
    + apply bind_ok in H as (kv & D & [= <-]). apply map_res_Forall2 in D. split; [right; eauto|]. split; [apply last_map_NoDup|]. split.
      * intros o' [= <-] x I. pose proof (R o x eq_refl I) as Rx. clear R. induction D as [|y z l l' E D IH]; [destruct I|].
        destruct I as [<-|I]; [|now apply IH]. apply bind_ok in E as (v & E & _). exists v. now apply Rx.
      * intros k. cbn [claim]. rewrite lookup_last_map.
        assert (D' : Forall2 (fun x y => fst y = fst x /\ dec (snd x) = Ok (snd y)) (rev o) (rev kv)).
        { clear R. induction D as [|y z l l' E D IH]; cbn [rev]; [constructor|]. apply Forall2_app; [exact IH|]. constructor; [|constructor].
          apply bind_ok in E as (v & E & [= <-]). auto. }
        assert (R' : forall y, In y (rev o) -> reads dec means (snd y)) by (intros y I; apply (R o); [reflexivity|now apply in_rev]).
        clear D R. induction D' as [|y z l l' [E1 E2] D IH]; cbn [lookup]; [reflexivity|].
        destruct y as [ky y], z as [kz z]. cbn [fst snd] in *. subst kz. destruct (String.eqb k ky).
        -- exists z. split; [reflexivity|]. apply (R' (ky, y)); [now left|exact E2].
        -- apply IH. intros w I. apply R'. now right.
  - intros (m & O & N & W & C). destruct O as [-> | [o ->]]; [eauto|].
    destruct (map_res_reads (fun x => v <- dec (snd x) ;; Ok (fst x, v)) o) as [r Er].
    + intros kv I. destruct (W o eq_refl kv I) as [a M]. destruct (proj2 (R o kv eq_refl I)) as [b D]; [eauto|]. rewrite D. cbn. eauto.
    + rewrite Er. cbn. eauto.
Qed.
Lemma reads_slice {A} (dec : json -> res A) (means : json -> A -> Prop) x :
  (forall l y, x = JArr l -> In y l -> reads dec means y) ->
  reads (dec_slice dec) (fun x l => (x = JNull /\ l = []) \/ exists xs, x = JArr xs /\ Forall2 means xs l) x.
Proof.
  intros R. unfold reads, dec_slice. split.
  - intros l H. destruct x as [| | | |xs|]; try discriminate; [injection H as <-; auto|]. right. exists xs. split; [reflexivity|].
    apply map_res_Forall2 in H. specialize (R xs). induction H as [|y z ys zs E D IH]; constructor.
    + apply R; auto. now left.
    + apply IH. intros w E' I. apply R; [reflexivity|]. now right.
  - intros (l & [[-> ->] | (xs & -> & F)]); [eauto|]. apply map_res_reads. intros y I.
    apply (R xs y eq_refl I). clear R. induction F; [destruct I|]. destruct I as [<-|I]; eauto.
Qed.

(** ** Values of any type *)
Lemma any_same j : plain j -> same_value j (any_of j).
Proof.
  induction j as [|b|q|s|l IH|o IH] using json_rect'; intros P; cbn [any_of].
  - constructor.
  - constructor.
  - inversion P as [| |q' z E| | |]; subst. constructor.
    rewrite (Qfloor_comp _ _ E), Qfloor_Z. exact E.
  - constructor.
  - constructor. inversion P as [| | | |l' F|]; subst. clear P. induction l as [|x l IHl]; cbn [map]; constructor.
    + apply (Forall_inv IH). exact (Forall_inv F).
    + apply IHl; [exact (Forall_inv_tail IH)|exact (Forall_inv_tail F)].
  - constructor.
    + apply last_map_NoDup.
    + intros k y L. rewrite lookup_last_mapped, L. cbn. exists (any_of y). split; [reflexivity|].
      pose proof (plain_claim _ _ _ P L) as Py. apply lookup_In in L. apply in_rev in L. rewrite Forall_forall in IH. exact (IH _ L Py).
    + intros k L. now rewrite lookup_last_mapped, L.
Qed.

Lemma floor_whole q z : (q == inject_Z z)%Q -> Qfloor q = z.
Proof. intros E. now rewrite (Qfloor_comp _ _ E), Qfloor_Z. Qed.

Theorem reads_attribute t : forall x, plain x -> reads (fun x => decode_value t (any_of x)) (attribute t) x.
Proof.
  induction t as [| | | | | |t IH|t IH]; intros x P; unfold reads; cbn [decode_value attribute].
  - split; [intros a [= <-]; now apply any_same|eauto].
  - split.
    + intros a H. destruct x; try discriminate; injection H as <-; eauto.
    + intros (a & [(b & -> & _) | (-> & _)]); cbn; eauto.
  - split.
    + intros a H. destruct x; try discriminate; injection H as <-; [auto|]. left. inversion P as [| |q' z E| | |]; subst.
      exists q, z. now rewrite (floor_whole _ _ E).
    + intros (a & [(q & z & -> & _) | (-> & _)]); cbn; eauto.
  - split.
    + intros a H. destruct x; try discriminate; injection H as <-; [auto|]. left. inversion P as [| |q' z E| | |]; subst.
      exists q, z. now rewrite (floor_whole _ _ E).
    + intros (a & [(q & z & -> & _) | (-> & _)]); cbn; eauto.
  - split.
    + intros a H. destruct x; try discriminate; injection H as <-; eauto.
    + intros (a & [(b & -> & _) | (-> & _)]); cbn; eauto.
  - split.
    + intros a H. destruct x; try discriminate; injection H as <-; [auto|]. left. eexists _, _. split; [reflexivity|]. split; [|reflexivity].
      exact (any_same _ P).
    + intros (a & [(o & w & -> & _) | (-> & _)]); cbn; eauto.
  - split.
    + intros a H. destruct x as [| | | | |o]; try discriminate; [injection H as <-; auto|]. cbn [any_of] in H. left.
      apply bind_ok in H as (kv' & D & [= <-]). exists o, kv'. split; [reflexivity|]. split; [reflexivity|].
      apply map_res_Forall2 in D. set (m := last_map _) in D.
      assert (K : keys kv' = keys m /\ forall k, match lookup k m with Some y => exists a, lookup k kv' = Some a /\ decode_value t y = Ok a | None => lookup k kv' = None end).
      { clear -D. induction D as [|y z l l' E D [K L]]; [split; [reflexivity|intros k; reflexivity]|].
        apply bind_ok in E as (v & E & [= <-]). destruct y as [ky y]. cbn [fst snd] in *. split; [cbn; now f_equal|].
        intros k. cbn [lookup]. destruct (String.eqb k ky); [eauto|apply L]. }
      destruct K as [K L]. split; [rewrite K; apply last_map_NoDup|]. intros k. specialize (L k). cbn [claim].
      unfold m in L. rewrite lookup_last_mapped in L. destruct (lookup k (rev o)) as [y|] eqn:E; cbn [option_map] in L; [|exact L].
      destruct L as (a & La & Da). exists a. split; [exact La|]. apply IH; [exact (plain_claim _ _ _ P E)|exact Da].
    + intros (a & [(o & kv & -> & _ & _ & C) | (-> & _)]); [|cbn; eauto]. cbn [any_of].
      destruct (map_res_reads (fun x => y <- decode_value t (snd x) ;; Ok (fst x, y)) (last_map (map (fun kv => (fst kv, any_of (snd kv))) o))) as [r Er].
      * intros [k w] I. apply (In_lookup _ _ _ (last_map_NoDup _)) in I. rewrite lookup_last_mapped in I.
        destruct (lookup k (rev o)) as [y|] eqn:E; [|discriminate]. injection I as <-. specialize (C k). cbn [claim] in C. rewrite E in C.
        destruct C as (v & _ & A). destruct (proj2 (IH y (plain_claim _ _ _ P E))) as [b D]; [eauto|]. cbn [snd fst]. rewrite D. cbn. eauto.
      * rewrite Er. cbn. eauto.
  - split.
    + intros a H. destruct x as [| | | |l|]; try discriminate; [injection H as <-; auto|]. cbn [any_of] in H. left.
      apply bind_ok in H as (l' & D & [= <-]). exists l, l'. split; [reflexivity|]. split; [reflexivity|].
      apply map_res_Forall2 in D. inversion P as [| | | |l2 F|]; subst. clear P. revert l' D. induction l as [|y l IHl]; intros l' D; inversion D; subst; constructor.
      * apply IH; [exact (Forall_inv F)|assumption].
      * apply IHl; [exact (Forall_inv_tail F)|assumption].
    + intros (a & [(xs & vs & -> & _ & F) | (-> & _)]); [|cbn; eauto]. cbn [any_of]. inversion P as [| | | |l2 Fp|]; subst.
      destruct (map_res_reads (decode_value t) (map any_of xs)) as [r Er].
      * intros w I. apply in_map_iff in I as (y & <- & I). rewrite Forall_forall in Fp. apply (IH y (Fp y I)).
        clear -F I. induction F; [destruct I|]. destruct I as [<-|I]; eauto.
      * rewrite Er. cbn. eauto.
Qed.
