(** Cases for the theorems on the requests of a resolution, and a family of federations in
    which one server is asked again and again. *)
From Verif Require Import Base BaseFacts GoVal Policy Schema Metadata Chain Resolver SpecResolver WitnessResolver Requests SpecRequests RequestFacts.
From Coq Require Import Lia.
Local Open Scope string_scope.

(** The leaf of [net0] names a server that does not answer and an intermediate. *)
Lemma net0_requests : resolve_requests 5 net0 tas0 [] LEAF =
  [ForConfig [] LEAF; ForConfig [0] "https://down.example"; ForConfig [1] IM;
   ForStatement [1] "https://im.example/fetch" LEAF IM; ForConfig [0; 1] TA;
   ForStatement [0; 1] "https://ta.example/fetch" IM TA].
Proof. vm_compute. reflexivity. Qed.

Lemma net0_resolves : exists t, resolve_tree 5 net0 tas0 [] LEAF = Done (Ok t).
Proof. eexists. vm_compute. reflexivity. Qed.

(** [net0] with one more entity, which nobody names. *)
Definition net_more : world :=
  World (fun p a => if String.eqb a "https://other.example" then Some ta_cfg else w_config net0 p a)
        (w_fetch net0) (w_now net0) (w_verify net0) (w_host net0).

Lemma more_alike : same_but_served net0 net_more /\
  (forall r, In r (resolve_requests 5 net0 tas0 [] LEAF) -> answered_alike net0 net_more r) /\
  w_config net_more [] "https://other.example" <> w_config net0 [] "https://other.example".
Proof.
  split; [repeat split|]. split; [|discriminate]. rewrite net0_requests. cbn [In].
  intros r H. repeat (destruct H as [<-|H]; [vm_compute; reflexivity|]). destruct H.
Qed.

Lemma net0_federation : federation_of [LEAF; "https://down.example"; IM; TA] 2 net0.
Proof.
  intros p a ec. change (w_config net0 p a) with (lookup a [(LEAF, leaf0); (IM, im_cfg); (TA, ta_cfg)]).
  cbn [lookup].
  destruct (String.eqb_spec a LEAF) as [->|]; [intros [= <-]; split; [now left|split; [|cbn; lia]]|].
  { intros x [<-|[<-|[]]]; cbn; auto. }
  destruct (String.eqb_spec a IM) as [->|]; [intros [= <-]; split; [cbn; auto|split; [|cbn; lia]]|].
  { intros x [<-|[]]; cbn; auto. }
  destruct (String.eqb_spec a TA) as [->|]; [intros [= <-]; split; [cbn; auto 6|split; [|cbn; lia]]|discriminate].
  intros x [].
Qed.

(** ** A server that is asked again and again *)

(** Two entities at each of [n] levels above the first; each names both entities of the next
    level as its superiors, and those of the last level name one that does not answer. Nothing
    is signed. *)
Definition victim : string := "https://victim.example".
Fixpoint marks (k : nat) : string := match k with O => "" | S k => String "x" (marks k) end.
Definition rung (b : bool) (k : nat) : string := (if b then "https://l" else "https://r") ++ marks k.
Definition level (a : string) : nat := String.length a - 9.
Definition rung_hints (n k : nat) : list string := if Nat.ltb k n then [rung true (S k); rung false (S k)] else [victim].
Definition rung_md : option metadata := Eval vm_compute in option_map md_msgpack (md_fetch "https://fetch").
Definition rung_cfg (n : nat) (a : string) : stmt :=
  mk "forged" a a ["key"] (rung_hints n (level a)) rung_md None [] 1000%Z.
Fixpoint rungs (n : nat) : list string :=
  match n with O => [] | S n => rung true (S n) :: rung false (S n) :: rungs n end.
Definition ladder_ids (n : nat) : list string := rung true 0 :: rungs n.
Definition ladder (n : nat) : world :=
  World (fun _ a => if mem a (ladder_ids n) then Some (rung_cfg n a) else None)
        (fun _ _ sub iss => Some (mk "forged" iss sub ["key"] [] None None [] 1000%Z))
        (fun _ _ => 500%Z) (fun _ _ => false) host_of.

Lemma marks_length k : String.length (marks k) = k.
Proof. induction k; cbn; auto. Qed.
Lemma rung_length b k : String.length (rung b k) = 9 + k.
Proof. destruct b; cbn; now rewrite marks_length. Qed.
Lemma rung_level b k : level (rung b k) = k.
Proof. unfold level. rewrite rung_length. lia. Qed.
Lemma rung_victim b k : rung b k <> victim.
Proof. destruct b; discriminate. Qed.
Lemma rung_anchor b k : rung b k <> TA.
Proof. destruct b; discriminate. Qed.

Lemma rungs_length n : List.length (rungs n) = 2 * n.
Proof. induction n as [|n IH]; cbn [rungs List.length]; lia. Qed.
Lemma rungs_in n b k : 1 <= k -> k <= n -> In (rung b k) (rungs n).
Proof.
  intros L. induction n as [|n IH]; intros M; [lia|]. cbn [rungs In].
  destruct (Nat.eq_dec k (S n)) as [->|]; [destruct b; auto|]. right. right. apply IH. lia.
Qed.
Lemma ladder_in n b k : 1 <= k -> k <= n -> In (rung b k) (ladder_ids n).
Proof. intros L M. right. now apply rungs_in. Qed.
Lemma rungs_only n a : In a (rungs n) -> exists b k, a = rung b k /\ k <= n.
Proof.
  induction n as [|n IH]; cbn [rungs In]; [intros []|].
  intros [<-|[<-|H]]; [exists true, (S n)|exists false, (S n)|]; auto.
  destruct (IH H) as (b & k & -> & L). exists b, k. auto.
Qed.
Lemma ladder_only n a : In a (ladder_ids n) -> exists b k, a = rung b k /\ k <= n.
Proof. intros [<-|H]; [exists true, 0; split; [auto|lia]|now apply rungs_only]. Qed.

Lemma ladder_federation n : federation_of (victim :: ladder_ids n) 2 (ladder n).
Proof.
  intros p a ec. cbn [w_config ladder]. destruct (mem a (ladder_ids n)) eqn:M; [|discriminate]. intros [= <-].
  apply mem_In in M. split; [now right|]. destruct (ladder_only n a M) as (b & k & -> & L).
  change (st_hints (rung_cfg n (rung b k))) with (rung_hints n (level (rung b k))). rewrite rung_level.
  unfold rung_hints. destruct (Nat.ltb_spec k n) as [K|K].
  - split; [|auto]. intros x [<-|[<-|[]]]; right; apply ladder_in; lia.
  - split; [|cbn; lia]. intros x [<-|[]]. now left.
Qed.

Definition ladder_asked (l : list request) : nat := List.length (filter (for_config_of victim) l).
Lemma ladder_asked_app l l' : ladder_asked (l ++ l')%list = ladder_asked l + ladder_asked l'.
Proof. unfold ladder_asked. now rewrite filter_app, app_length. Qed.

Lemma ladder_step n p b k b' d types ids : S k <= n -> (forall x, In x ids -> String.length x <= 9 + k) ->
  exists s, hint_step (ladder n) p (rung_cfg n (rung b k)) d types ids (rung b' (S k)) = Some (rung_cfg n (rung b' (S k)), s).
Proof.
  intros L HI. unfold hint_step.
  assert (M : mem (rung b' (S k)) ids = false).
  { apply mem_nIn. intros H. apply HI in H. rewrite rung_length in H. lia. }
  rewrite M. cbn [w_config ladder].
  rewrite (proj2 (mem_In _ _) (ladder_in n b' (S k) ltac:(lia) L)).
  change (st_iss (rung_cfg n (rung b' (S k)))) with (rung b' (S k)).
  change (st_sub (rung_cfg n (rung b' (S k)))) with (rung b' (S k)).
  change (time_valid (w_now (ladder n) p false) (rung_cfg n (rung b' (S k)))) with true.
  rewrite !String.eqb_refl. cbn [negb andb orb].
  change (String.eqb (fetch_endpoint (rung_cfg n (rung b' (S k)))) "") with false. cbn [w_fetch ladder].
  eexists. unfold mk at 1 2 3. cbn [st_iss st_sub st_constraints mk]. rewrite !String.eqb_refl. cbn [negb orb].
  change (time_valid _ _) with true. reflexivity.
Qed.

Lemma ladder_count n j : forall b k fuel p d types ids, k + j = n -> j < fuel ->
  (forall x, In x ids -> x <> victim /\ String.length x <= 9 + k) ->
  2 ^ j <= ladder_asked (tree_requests fuel (ladder n) tas0 p d types ids (rung_cfg n (rung b k))).
Proof.
  induction j as [|j IH]; intros b k fuel p d types ids E F HI; (destruct fuel as [|f]; [lia|]); cbn [tree_requests].
  all: assert (A : mem (st_iss (rung_cfg n (rung b k))) (anchor_ids tas0) = false)
         by (apply mem_nIn; intros [H|[]]; exact (rung_anchor b k (eq_sym H))); rewrite A.
  all: change (st_hints (rung_cfg n (rung b k))) with (rung_hints n (level (rung b k))); rewrite rung_level; unfold rung_hints.
  - assert (K : Nat.ltb k n = false) by (apply Nat.ltb_ge; lia). rewrite K. cbn [hints_requests].
    rewrite !ladder_asked_app. unfold hint_requests.
    assert (M : mem victim ids = false) by (apply mem_nIn; intros H; apply HI in H; now destruct H).
    rewrite M. cbn [w_config ladder].
    assert (M' : mem victim (ladder_ids n) = false).
    { apply mem_nIn. intros H. apply ladder_only in H. destruct H as (b' & k' & H & _). exact (rung_victim b' k' (eq_sym H)). }
    rewrite M'. cbn. lia.
  - assert (K : Nat.ltb k n = true) by (apply Nat.ltb_lt; lia). rewrite K. cbn [hints_requests].
    rewrite !ladder_asked_app.
    assert (HI' : forall x, In x ids -> String.length x <= 9 + k) by (intros x Hx; now apply HI).
    destruct (ladder_step n (0 :: p) b k true d types ids ltac:(lia) HI') as (s & ->).
    destruct (ladder_step n (1 :: p) b k false d types ids ltac:(lia) HI') as (s' & ->).
    assert (HI2 : forall b' x, In x (rung b' (S k) :: ids) -> x <> victim /\ String.length x <= 9 + S k).
    { intros b' x [<-|Hx]; [split; [apply rung_victim|rewrite rung_length; lia]|]. apply HI in Hx. split; [easy|lia]. }
    pose proof (IH true (S k) f (0 :: p) (S d) (types ++ types_of (rung_cfg n (rung true (S k))))%list _ ltac:(lia) ltac:(lia) (HI2 true)) as Q1.
    pose proof (IH false (S k) f (1 :: p) (S d) (types ++ types_of (rung_cfg n (rung false (S k))))%list _ ltac:(lia) ltac:(lia) (HI2 false)) as Q2.
    cbn [Nat.pow]. lia.
Qed.

Lemma ladder_requests n fuel : n < fuel ->
  2 ^ n <= ladder_asked (resolve_requests fuel (ladder n) tas0 [] (rung true 0)).
Proof.
  intros F. unfold resolve_requests.
  change (String.eqb (rung true 0) "") with false.
  assert (C : w_config (ladder n) [] (rung true 0) = Some (rung_cfg n (rung true 0))).
  { cbn [w_config ladder]. now rewrite (proj2 (mem_In _ _) (or_introl eq_refl : In (rung true 0) (ladder_ids n))). }
  rewrite C. cbv iota. unfold ladder_asked. cbn [filter]. change (for_config_of victim (ForConfig [] (rung true 0))) with false.
  cbv iota.
  change (st_metadata (rung_cfg n (rung true 0))) with rung_md. unfold rung_md at 1. cbv iota.
  apply (ladder_count n n true 0 fuel [] 0); [lia|auto|].
  intros x [<-|[]]. split; [discriminate|cbn; lia].
Qed.

(** With 2n+2 entities, each naming at most two superiors, one that does not answer is asked
    2^n times; no signature in the network verifies. *)
Theorem asked_again : forall n, exists U w tas start,
  List.length U = 2 * n + 2 /\ federation_of U 2 w /\ (forall j ks, w_verify w j ks = false) /\
  (forall p a, w_config w p a = w_config w [] a) /\ (forall p, w_config w p victim = None) /\
  forall fuel, n < fuel ->
    2 ^ n <= List.length (filter (for_config_of victim) (resolve_requests fuel w tas [] start)).
Proof.
  intros n. exists (victim :: ladder_ids n), (ladder n), tas0, (rung true 0).
  split; [unfold ladder_ids; cbn [List.length]; rewrite rungs_length; lia|]. split; [apply ladder_federation|].
  split; [reflexivity|]. split; [reflexivity|]. split.
  - intros p. cbn [w_config ladder]. assert (M' : mem victim (ladder_ids n) = false); [|now rewrite M'].
    apply mem_nIn. intros H. apply ladder_only in H. destruct H as (b' & k' & H & _). exact (rung_victim b' k' (eq_sym H)).
  - intros fuel F. now apply ladder_requests.
Qed.
