(** Proofs: error replies. *)
From Coq Require Import Lia.
From Verif Require Import Base BaseFacts GoVal Policy Schema Metadata Chain Resolver FloatTime Json Web TrustMark WitnessResolver WitnessTrustMark ErrorReply SpecErrorReply.
Local Open Scope nat_scope.
Local Open Scope string_scope.

Lemma error_code_inj a b : error_code a = error_code b -> a = b.
Proof. destruct a, b; intros H; (reflexivity || discriminate H). Qed.
Lemma error_code_some k : error_code k <> "".
Proof. destruct k; discriminate. Qed.

Theorem decode_encode o : decode_error (encode_error o) = o.
Proof. destruct o as [c d]. reflexivity. Qed.

Lemma field_error n : field_of http_error_tags n = Some 0 <-> fold_name n = "error".
Proof.
  unfold field_of, http_error_tags, index_of.
  change (fold_name "error") with "error". change (fold_name "error_description") with "error_description". change (fold_name "Status") with "status".
  destruct (String.eqb_spec n "error") as [-> |N0]; [split; intros; reflexivity|].
  destruct (String.eqb_spec n "error_description") as [-> |N1]; [split; intros H; vm_compute in H; discriminate|].
  destruct (String.eqb_spec n "Status") as [-> |N2]; [split; intros H; vm_compute in H; discriminate|].
  destruct (String.eqb_spec (fold_name n) "error") as [-> |F0]; [split; intros; reflexivity|].
  split; [|contradiction].
  destruct (String.eqb (fold_name n) "error_description"); [discriminate|]. destruct (String.eqb (fold_name n) "status"); discriminate.
Qed.

Lemma take_error o n v : eo_error (take_member o (n, v)) = match v with JStr s => if String.eqb (fold_name n) "error" then s else eo_error o | _ => eo_error o end.
Proof.
  unfold take_member. cbn [fst snd]. pose proof (field_error n) as F.
  destruct (field_of http_error_tags n) as [[|[|i]]|] eqn:E.
  1: rewrite (proj1 F eq_refl); destruct v; reflexivity.
  all: assert (X : String.eqb (fold_name n) "error" = false) by (apply String.eqb_neq; intros G; apply F in G; discriminate); rewrite X; destruct v; reflexivity.
Qed.

Lemma fold_error : forall ms o, let c := eo_error (fold_left take_member ms o) in
  (exists l1 n l2, ms = (l1 ++ (n, JStr c) :: l2)%list /\ fold_name n = "error" /\ forall n' s, In (n', JStr s) l2 -> fold_name n' <> "error") \/
  (c = eo_error o /\ forall n' s, In (n', JStr s) ms -> fold_name n' <> "error").
Proof.
  induction ms as [|[n v] ms IH]; intros o; cbn [fold_left]; [right; split; [reflexivity|intros n' s []]|].
  destruct (IH (take_member o (n, v))) as [(l1 & n' & l2 & E & F & L)|[E L]].
  - left. exists ((n, v) :: l1), n', l2. split; [cbn; now rewrite <- E|auto].
  - cbv zeta. rewrite E, take_error. destruct v as [|b|q|s|l|m].
    4: destruct (String.eqb_spec (fold_name n) "error") as [F|F]; [left; exists [], n, ms; auto|].
    all: right; split; [reflexivity|]; intros n' s' [H|I]; [|now apply (L n' s')]; try discriminate H.
    injection H as <- _. exact F.
Qed.

Lemma member_unique ms c c' : error_member (JObj ms) c -> error_member (JObj ms) c' -> c = c'.
Proof.
  intros (l1 & n & l2 & E & F & L) (l1' & n' & l2' & E' & F' & L'). injection E as E. injection E' as E'. rewrite E in E'. clear E ms.
  revert l1' E'. induction l1 as [|x l1 IH]; intros [|x' l1'] E'; cbn [app] in E'.
  - now injection E' as _ -> _.
  - injection E' as _ ->. exfalso. apply (L n' c'); [apply in_elt|exact F'].
  - injection E' as _ E'. exfalso. apply (L' n c); [rewrite <- E'; apply in_elt|exact F].
  - injection E' as _ E'. now apply (IH l1').
Qed.

Lemma decode_member j c : c <> "" -> (eo_error (decode_error j) = c <-> error_member j c).
Proof.
  intros NE. split.
  - intros H. destruct j as [|b|q|s|l|ms]; cbn [decode_error eo_error] in H; try (now subst c).
    destruct (fold_error ms (ErrorObject "" "")) as [(l1 & n & l2 & E & F & L)|[E L]]; [|cbn [eo_error] in E; congruence].
    rewrite H in E. exists l1, n, l2. rewrite E at 1. auto.
  - intros M. destruct j as [|b|q|s|l|ms]; try (destruct M as (l1 & n & l2 & X & _); discriminate X).
    cbn [decode_error]. destruct (fold_error ms (ErrorObject "" "")) as [(l1 & n & l2 & E & F & L)|[E L]].
    + apply (member_unique ms); [|exact M]. exists l1, n, l2. rewrite E at 1. auto.
    + exfalso. destruct M as (l1 & n & l2 & [= X] & F & _). subst ms. apply (L n c); [apply in_elt|exact F].
Qed.

Lemma answer_error read r c : reply_answer read r = AError c <-> error_reply read r c.
Proof.
  split.
  - destruct r as [|status js body]; [discriminate|]. cbn [reply_answer].
    destruct (Nat.leb_spec 400 status) as [L|L]; [|discriminate]. destruct js; [|discriminate]. cbn [andb].
    destruct (String.eqb_spec (error_of read body) "") as [E|E]; [discriminate|]. intros [= H]. unfold error_of in *.
    destruct (read body) as [j|] eqn:R; [|contradiction]. exists status, body, j. rewrite H in E.
    split; [reflexivity|]. split; [exact L|]. split; [exact R|]. split; [now apply decode_member|exact E].
  - intros (status & body & j & -> & L & R & M & NE). cbn [reply_answer]. apply Nat.leb_le in L. rewrite L.
    unfold error_of. rewrite R. apply decode_member in M; [|exact NE]. rewrite M. apply String.eqb_neq in NE. now rewrite NE.
Qed.
Lemma answer_body read r b : reply_answer read r = ABody b <-> other_reply read r b.
Proof.
  split.
  - intros H. destruct r as [|status js body]; [discriminate|].
    assert (body = b) as ->. { cbn [reply_answer] in H. destruct (_ && _)%bool in H; [discriminate|now injection H]. }
    exists status, js. split; [reflexivity|]. intros c E. apply answer_error in E. congruence.
  - intros (status & js & -> & N). destruct (reply_answer read (HReply status js b)) as [|c|b'] eqn:E.
    + cbn [reply_answer] in E. destruct (_ && _)%bool in E; discriminate.
    + exfalso. apply answer_error in E. exact (N c E).
    + cbn [reply_answer] in E. destruct (_ && _)%bool in E; congruence.
Qed.

(** ** What clients of a resolve endpoint conclude *)
Section Client.
  Variables (fuel : nat) (e : env) (p : list nat) (ep : string) (rq : request) (read : string -> option json) (r : http_reply).
  Hypothesis replied : te_remote e p ep rq = reply_answer read r.

  Theorem error_told status body k d : r = HReply status true body -> 400 <= status -> read body = Some (encode_error (make_error k d)) ->
    resolve_payload fuel e (SimpleR ep) p rq = Done Err /\ resolve_metadata fuel e (SimpleR ep) p rq = Done Err /\
    resolve_possible fuel e (SimpleR ep) p rq = Done (Ok (meaning k)).
  Proof.
    intros -> L R. assert (A : te_remote e p ep rq = AError (error_code k)).
    { rewrite replied. apply answer_error. exists status, body, (encode_error (make_error k d)). repeat split; auto.
      - apply decode_member; [apply error_code_some|]. now rewrite decode_encode.
      - apply error_code_some. }
    cbn [resolve_payload resolve_metadata resolve_possible]. unfold remote_resolve, remote_payload, remote_possible, remote_response. rewrite A.
    destruct k; repeat split; reflexivity.
  Qed.

  Theorem possible_yes : resolve_possible fuel e (SimpleR ep) p rq = Done (Ok (true, false)) <->
    error_reply read r "invalid_metadata" \/ exists body pl, other_reply read r body /\ parse_response e body = Ok pl.
  Proof.
    cbn [resolve_possible]. unfold remote_possible, remote_response. rewrite replied.
    destruct (reply_answer read r) as [|c|b] eqn:A.
    - split; [discriminate|]. intros [H|(b & pl & H & _)]; [apply answer_error in H|apply answer_body in H]; congruence.
    - split.
      + unfold status_of. destruct (_ || _)%bool; [discriminate|]. destruct (String.eqb c "invalid_trust_chain"); [discriminate|].
        destruct (String.eqb_spec c "invalid_metadata") as [-> |]; [|discriminate]. intros _. left. now apply answer_error.
      + intros [H|(b & pl & H & _)]; [apply answer_error in H|apply answer_body in H; congruence]. rewrite H in A. injection A as <-. reflexivity.
    - split.
      + destruct (parse_response e b) as [pl| |] eqn:P; try discriminate. intros _. right. exists b, pl. split; [now apply answer_body|exact P].
      + intros [H|(b' & pl & H & P)]; [apply answer_error in H; congruence|]. apply answer_body in H. rewrite H in A. injection A as ->. now rewrite P.
  Qed.
  Theorem possible_no : resolve_possible fuel e (SimpleR ep) p rq = Done (Ok (false, true)) <->
    r = HFailed \/ error_reply read r "invalid_trust_chain" \/ exists body, other_reply read r body /\ forall pl, parse_response e body <> Ok pl.
  Proof.
    cbn [resolve_possible]. unfold remote_possible, remote_response. rewrite replied.
    destruct (reply_answer read r) as [|c|b] eqn:A.
    - split; [|reflexivity]. intros _. left. destruct r as [|s j b]; [reflexivity|]. cbn [reply_answer] in A. destruct (_ && _)%bool in A; discriminate.
    - split.
      + unfold status_of. destruct (_ || _)%bool; [discriminate|].
        destruct (String.eqb_spec c "invalid_trust_chain") as [-> |]; [|destruct (String.eqb c "invalid_metadata"); discriminate].
        intros _. right. left. now apply answer_error.
      + intros [H|[H|(b & H & _)]]; [rewrite H in A; discriminate| |apply answer_body in H; congruence].
        apply answer_error in H. rewrite H in A. injection A as <-. reflexivity.
    - split.
      + intros H. right. right. exists b. split; [now apply answer_body|]. intros pl P. rewrite P in H. discriminate.
      + intros [H|[H|(b' & H & P)]]; [rewrite H in A; discriminate|apply answer_error in H; congruence|].
        apply answer_body in H. rewrite H in A. injection A as ->. destruct (parse_response e b) as [pl| |]; [now destruct (P pl)|reflexivity|reflexivity].
  Qed.
End Client.
