(** Proofs: replies of list endpoints. *)
From Coq Require Import Lia.
From Verif Require Import Base BaseFacts GoVal Policy Schema Metadata Chain Resolver FloatTime Json Web TrustMark Refresher Cache ListCache ErrorReply SpecErrorReply
  ErrorReplyFacts ListReply SpecListReply.
Local Open Scope nat_scope.
Local Open Scope string_scope.

Lemma dec_strs_array l : forall ids, dec_strs l = Ok ids <-> Forall2 (fun v s => v = JStr s \/ (v = JNull /\ s = "")) l ids.
Proof.
  induction l as [|v l IH]; intros ids; cbn [dec_strs].
  - split; [intros [= <-]; constructor|intros H; now inversion H].
  - split.
    + destruct (dec_str "" v) as [s| |] eqn:D; try discriminate. cbn. destruct (dec_strs l) as [r| |]; try discriminate.
      intros [= <-]. constructor; [|now apply IH]. destruct v; try discriminate D; injection D as <-; auto.
    + intros H. inversion H as [|? s ? r V R]; subst. apply IH in R. rewrite R. destruct V as [-> |[-> ->]]; reflexivity.
Qed.
Lemma decode_array j ids : decode_list j = Ok (Some ids) <-> array_of j ids.
Proof.
  split.
  - destruct j as [|b|q|s|l|o]; try discriminate. cbn [decode_list]. destruct (dec_strs l) as [r| |] eqn:D; try discriminate.
    intros [= <-]. exists l. split; [reflexivity|]. now apply dec_strs_array.
  - intros (l & -> & F). apply dec_strs_array in F. cbn [decode_list]. now rewrite F.
Qed.

Lemma not_error read status js body : js = false \/ status < 400 -> forall code, ~ error_reply read (HReply status js body) code.
Proof. intros H code (s & b & j & [= -> -> ->] & L & _). destruct H; [discriminate|lia]. Qed.
Lemma is_error read status body : 400 <= status ->
  (error_of read body <> "" <-> exists code, error_reply read (HReply status true body) code).
Proof.
  intros L. pose proof (answer_error read (HReply status true body)) as A. cbn [reply_answer] in A. apply Nat.leb_le in L. rewrite L in A. cbn [andb] in A.
  destruct (String.eqb_spec (error_of read body) "") as [E|E]; cbn [negb] in A.
  - split; [contradiction|]. intros [c H]. apply A in H. discriminate.
  - split; [|auto]. intros _. exists (error_of read body). now apply A.
Qed.

(** The cases of [listing_reply]. *)
Lemma reply_listing read r ids : listing_reply read r = RListing ids <-> exists j, successful_json read r (Some j) /\ decode_list j = Ok ids.
Proof.
  split.
  - destruct r as [|status js body]; [discriminate|]. cbn [listing_reply]. destruct js; [|discriminate]. cbn [negb orb].
    destruct (Nat.eqb_spec status 204) as [E|E]; [discriminate|].
    destruct (Nat.leb_spec 200 status) as [L|L]; cbn [andb]; [destruct (Nat.ltb_spec status 300) as [M|M]|].
    2,3: destruct (_ && _)%bool; discriminate.
    destruct (read body) as [j|] eqn:R; [|discriminate]. destruct (decode_list j) as [i| |] eqn:D; try discriminate.
    intros [= <-]. exists j. split; [|exact D]. exists status, body. auto.
  - intros (j & (status & body & -> & [L M] & N & R) & D). cbn [listing_reply negb orb].
    apply Nat.eqb_neq in N. apply Nat.leb_le in L. apply Nat.ltb_lt in M. now rewrite N, L, M, R, D.
Qed.
Lemma reply_nothing read r : listing_reply read r = ROther <-> says_nothing read r.
Proof.
  split.
  - destruct r as [|status js body]; [discriminate|]. cbn [listing_reply]. destruct js; cbn [negb orb].
    2:{ intros _. exists status, false, body. split; [reflexivity|]. split; [auto|]. apply not_error. auto. }
    destruct (Nat.eqb_spec status 204) as [-> |E].
    { intros _. exists 204, true, body. split; [reflexivity|]. split; [auto|]. apply not_error. lia. }
    destruct (Nat.leb_spec 200 status) as [L|L]; cbn [andb]; [destruct (Nat.ltb_spec status 300) as [M|M]|].
    { destruct (read body) as [j|]; [destruct (decode_list j)|]; discriminate. }
    all: intros H; exists status, true, body; (split; [reflexivity|]); (split; [lia|]).
    all: destruct (Nat.leb_spec 400 status) as [K|K]; [|apply not_error; lia].
    all: intros code X; assert (Y : error_of read body <> "") by (apply (is_error read status body K); eauto);
      apply String.eqb_neq in Y; rewrite Y in H; discriminate.
  - intros (status & js & body & -> & C & N). cbn [listing_reply]. destruct js; [|reflexivity]. cbn [negb orb].
    destruct (Nat.eqb_spec status 204) as [E|E]; [reflexivity|].
    destruct (Nat.leb_spec 200 status) as [L|L]; cbn [andb]; [destruct (Nat.ltb_spec status 300) as [M|M]|].
    { exfalso. destruct C as [C|C]; [discriminate|lia]. }
    all: destruct (Nat.leb_spec 400 status) as [K|K]; [|reflexivity]; cbn [andb].
    all: destruct (String.eqb_spec (error_of read body) "") as [Y|Y]; [reflexivity|]; exfalso;
      apply (is_error read status body K) in Y; destruct Y as [code X]; exact (N code X).
Qed.

Theorem fetched_exact read r l : (exists ids, http_fetch_list (listing_reply read r) = Ok ids /\ match ids with Some l' => l' | None => [] end = l) <->
  (exists j, successful_json read r (Some j) /\ array_of j l) \/ (l = [] /\ (successful_json read r (Some JNull) \/ says_nothing read r)).
Proof.
  split.
  - intros (ids & H & E). destruct (listing_reply read r) as [| |i|] eqn:R; try discriminate; cbn [http_fetch_list] in H; injection H as <-.
    + apply reply_listing in R. destruct R as (j & S & D). destruct i as [i|].
      * left. exists j. split; [exact S|]. apply decode_array. now subst.
      * right. split; [now subst|]. left. destruct j as [|b|q|s|a|o]; cbn [decode_list] in D; try discriminate; [exact S|].
        destruct (dec_strs a); discriminate.
    + right. split; [now subst|]. right. now apply reply_nothing.
  - intros [(j & S & A)|[-> [S|N]]].
    + exists (Some l). split; [|reflexivity]. assert (R : listing_reply read r = RListing (Some l)); [|now rewrite R].
      apply reply_listing. exists j. split; [exact S|]. now apply decode_array.
    + exists None. split; [|reflexivity]. assert (R : listing_reply read r = RListing None); [|now rewrite R].
      apply reply_listing. exists JNull. split; [exact S|reflexivity].
    + exists (Some []). split; [|reflexivity]. apply reply_nothing in N. now rewrite N.
Qed.

Theorem fetched_some read r l : http_fetch_list (listing_reply read r) = Ok (Some l) -> l <> [] ->
  exists j, successful_json read r (Some j) /\ array_of j l.
Proof.
  intros H N. destruct (proj1 (fetched_exact read r l)) as [A|[E _]]; [now exists (Some l)|exact A|contradiction].
Qed.
Theorem fetched_error read r : http_fetch_list (listing_reply read r) = Err <->
  r = HFailed \/ (exists code, error_reply read r code) \/ successful_json read r None \/
  exists j, successful_json read r (Some j) /\ j <> JNull /\ forall l, ~ array_of j l.
Proof.
  split.
  - intros H. destruct r as [|status js body]; [now left|]. cbn [listing_reply] in H. destruct js; [|discriminate]. cbn [negb orb] in H.
    destruct (Nat.eqb_spec status 204) as [E|E]; [discriminate|].
    destruct (Nat.leb_spec 200 status) as [L|L]; cbn [andb] in H; [destruct (Nat.ltb_spec status 300) as [M|M]|].
    + right. right. destruct (read body) as [j|] eqn:R.
      * right. exists j. split; [exists status, body; auto|]. split; [intros ->; discriminate|]. intros l A. apply decode_array in A. rewrite A in H. discriminate.
      * left. exists status, body. auto.
    + right. left. destruct (Nat.leb_spec 400 status) as [K|K]; [|discriminate]. apply (is_error read status body K). intros Y. rewrite Y in H. discriminate.
    + exfalso. destruct (Nat.leb_spec 400 status) as [K|K]; [lia|discriminate].
  - intros [-> |[[code X]|[(status & body & -> & [L M] & N & R)|(j & (status & body & -> & [L M] & N & R) & NN & A)]]].
    + reflexivity.
    + assert (X' := X). destruct X as (status & body & j & -> & L & _). assert (Y : error_of read body <> "") by (apply (is_error read status body L); eauto).
      cbn [listing_reply negb orb]. destruct (Nat.eqb_spec status 204); [lia|]. destruct (Nat.leb_spec 200 status); [|lia]. destruct (Nat.ltb_spec status 300); [lia|].
      apply Nat.leb_le in L. apply String.eqb_neq in Y. cbn [andb]. now rewrite L, Y.
    + cbn [listing_reply negb orb]. apply Nat.eqb_neq in N. apply Nat.leb_le in L. apply Nat.ltb_lt in M. now rewrite N, L, M, R.
    + cbn [listing_reply negb orb]. apply Nat.eqb_neq in N. apply Nat.leb_le in L. apply Nat.ltb_lt in M. rewrite N, L, M, R. cbn [andb].
      destruct (decode_list j) as [[l|]| |] eqn:D; try reflexivity.
      * exfalso. apply (A l). now apply decode_array.
      * exfalso. apply NN. destruct j as [|b|q|s|a|o]; cbn [decode_list] in D; try discriminate; [reflexivity|]. destruct (dec_strs a); discriminate.
Qed.
