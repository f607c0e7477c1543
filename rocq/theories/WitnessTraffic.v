(** Cases for the theorems on the HTTP requests of a resolution. *)
From Coq Require Import QArith Lia.
From Verif Require Import Base BaseFacts GoVal Policy Schema Metadata Chain Resolver SpecResolver WitnessResolver TrustMark Refresher FloatTime Cache
  CacheFacts Requests SpecRequests RequestFacts WitnessRequests Traffic SpecTraffic TrafficFacts.
Local Open Scope nat_scope.
Local Open Scope string_scope.

(** What the network [w] answers to a request, also when there is no cache. *)
Definition asked_directly (w : world) : request -> option stmt := answer_in w.
Definition at_500 : nat -> time * time * time := fun _ => (500, 500, 501)%Z.

Lemma ladder_names n : same_names (ladder n).
Proof.
  exists (fun a => a), (fun a => rung_hints n (level a)). intros p a ec. cbn [w_config ladder].
  destruct (mem a (ladder_ids n)); [|discriminate]. now intros [= <-].
Qed.

Definition ladder_answer (n : nat) (k : string * string) : option stmt :=
  if String.eqb (fst k) (snd k) then w_config (ladder n) [] (fst k) else w_fetch (ladder n) [] "" (fst k) (snd k).

Lemma ladder_packed n k s : ladder_answer n k = Some s -> stmt_msgpack s = s.
Proof.
  unfold ladder_answer. destruct (String.eqb _ _); cbn [w_config w_fetch ladder].
  - destruct (mem _ _); [|discriminate]. intros [= <-]. reflexivity.
  - intros [= <-]. reflexivity.
Qed.

Lemma ladder_reached n tas types p e below : reached (ladder n) tas types (rung true 0) p e below -> st_sub e = st_iss e.
Proof.
  intros H. destruct H as [e S|p e below i a ec s R T (C & EI & ES & _) US]; [|congruence].
  destruct S as (_ & s & m & C & _ & ->). cbn [w_config ladder] in C.
  destruct (mem _ _); [|discriminate]. injection C as <-. reflexivity.
Qed.

Lemma ladder_steady n fuel types r : In r (resolve_requests fuel (ladder n) tas0 types (rung true 0)) ->
  asked_directly (ladder n) r = ladder_answer n (kept_as r) /\ answer_in (ladder n) r = ladder_answer n (kept_as r).
Proof.
  intros H. apply requests_sound in H. unfold asked_directly. assert (A : answer_in (ladder n) r = ladder_answer n (kept_as r)); [|auto].
  unfold ladder_answer. destruct H as [N|p e below i a R T|p e below i a ec R T UC]; cbn [kept_as answer_in fst snd].
  - now rewrite String.eqb_refl.
  - now rewrite String.eqb_refl.
  - destruct T as (_ & _ & T). pose proof (T e (or_introl eq_refl)) as NE. rewrite (ladder_reached n _ _ _ _ _ R) in NE.
    destruct (String.eqb_spec (st_iss e) a); [contradiction|]. reflexivity.
Qed.

Lemma ladder_seen n fuel types t :
  seen_through (asked_directly (ladder n)) t (ladder n) 0 (resolve_requests fuel (ladder n) tas0 types (rung true 0)) (Memory []).
Proof.
  apply (steady_seen (ladder_answer n)).
  - apply ladder_packed.
  - intros e [].
  - apply ladder_steady.
Qed.

Lemma ladder_lasts n : lasting 100%Z 500%Z 501%Z (asked_directly (ladder n)) [].
Proof.
  split; [|intros e s []]. intros r s. unfold asked_directly. destruct r; cbn [answer_in w_config w_fetch ladder].
  - destruct (mem _ _); [|discriminate]. intros [= <-]. split; reflexivity.
  - intros [= <-]. split; reflexivity.
Qed.

(** Two levels: the two entities of the second level are each named by both of the first. *)
Lemma traffic_case :
  within 500%Z 501%Z at_500 /\ lasting 100%Z 500%Z 501%Z (asked_directly (ladder 2)) [] /\
  federation_of (victim :: ladder_ids 2) 2 (ladder 2) /\ same_names (ladder 2) /\
  seen_through (asked_directly (ladder 2)) at_500 (ladder 2) 0 (resolve_requests 5 (ladder 2) tas0 [] (rung true 0)) (Memory []) /\
  List.length (filter (gets_answer (asked_directly (ladder 2))) (resolve_requests 5 (ladder 2) tas0 [] (rung true 0))) = 13 /\
  List.length (filter (gets_answer (asked_directly (ladder 2)))
    (sent 100%Z (3 # 4) (asked_directly (ladder 2)) at_500 0 (resolve_requests 5 (ladder 2) tas0 [] (rung true 0)) (Memory []))) = 11.
Proof.
  split. { intros i now t1 t2 [= <- <- <-]. lia. }
  split; [apply ladder_lasts|]. split; [apply ladder_federation|]. split; [apply ladder_names|]. split; [apply ladder_seen|].
  split; vm_compute; reflexivity.
Qed.

Theorem unanswered_again : forall n, exists U w tas start net,
  List.length U = 2 * n + 2 /\ federation_of U 2 w /\ same_names w /\ (forall p, net (ForConfig p victim) = None) /\
  forall fuel t, n < fuel ->
    seen_through net t w 0 (resolve_requests fuel w tas [] start) (Memory []) /\
    forall grace factor,
      2 ^ n <= List.length (filter (for_config_of victim) (sent grace factor net t 0 (resolve_requests fuel w tas [] start) (Memory []))).
Proof.
  intros n. exists (victim :: ladder_ids n), (ladder n), tas0, (rung true 0), (asked_directly (ladder n)).
  split; [unfold ladder_ids; cbn [List.length]; rewrite rungs_length; lia|]. split; [apply ladder_federation|].
  split; [apply ladder_names|].
  assert (V : w_config (ladder n) [] victim = None).
  { cbn [w_config ladder]. assert (M' : mem victim (ladder_ids n) = false); [|now rewrite M'].
    apply mem_nIn. intros H. apply ladder_only in H. destruct H as (b' & k' & H & _). exact (rung_victim b' k' (eq_sym H)). }
  split; [intros p; exact V|]. intros fuel t F. split; [apply ladder_seen|]. intros grace factor.
  rewrite unanswered_sent.
  - now apply ladder_requests.
  - intros [].
  - intros r H E. destruct (ladder_steady n fuel [] r H) as [-> _]. rewrite E. unfold ladder_answer. cbn [fst snd].
    rewrite String.eqb_refl. exact V.
Qed.
