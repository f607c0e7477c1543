(** Concrete cases for the theorems on authenticity. *)
From Coq Require Import Lia.
From Verif Require Import Base GoVal Policy Schema Metadata Chain Resolver SpecResolver SpecChain SpecAuth WitnessResolver.
Local Open Scope string_scope.

(** Leaf, intermediate and anchor of net0 own "kl", "ki" and "kt"; an entity has signed the
    JWTs that start with its key. *)
Definition key_of : smap string := [(LEAF, "kl"); (IM, "ki"); (TA, "kt")].
Definition owns0 (id k : string) : Prop := lookup id key_of = Some k.
Definition signed0 (id jwt : string) : Prop := exists k, owns0 id k /\ has_prefix k jwt = true.
Definition served0 : list stmt := [leaf0; im_cfg; ta_cfg; im_sub LEAF None []; ta_sub None].
Definition dec0 (jwt : string) : option stmt := find (fun s => String.eqb (st_jwt s) jwt) served0.

Lemma ideal0 : ideal net0 dec0 owns0 signed0.
Proof.
  split.
  - intros p a s H. cbn [net0 net tables w_config] in H. unfold lookup in H.
    repeat match type of H with (if ?b then _ else _) = _ => destruct b; [injection H as <-; reflexivity|] end. discriminate.
  - intros p ep sub iss s H. cbn [net0 net tables w_fetch] in H. unfold lookup in H.
    repeat match type of H with (if ?b then _ else _) = _ => destruct b; [injection H as <-; reflexivity|] end. discriminate.
  - intros id jwt ks O V. cbn [net0 net tables w_verify] in V. apply existsb_exists in V.
    destruct V as (k & Hk & V). exists k. auto.
Qed.

Lemma careful0 id : careful dec0 owns0 signed0 id.
Proof.
  intros jwt s l k _ D _ K Hk. unfold dec0 in D. apply find_some in D. destruct D as [D _].
  destruct D as [<-|[<-|[<-|[<-|[<-|[]]]]]]; injection K as <-; destruct Hk as [<-|[]]; reflexivity.
Qed.

Lemma c90_case :
  ideal net0 dec0 owns0 signed0 /\ (forall ta, In ta tas0 -> anchor_known net0 owns0 ta) /\
  returned net0 tas0 [] LEAF (chain0 leaf0 None None []) /\ List.length (chain0 leaf0 None None []) = 4 /\
  (forall id, careful dec0 owns0 signed0 id) /\
  signed0 LEAF (st_jwt leaf0) /\ ~ signed0 IM (st_jwt leaf0) /\ ~ signed0 TA (st_jwt leaf0).
Proof.
  split; [apply ideal0|]. split.
  { intros ta [<-|[]] k [<-|[]]. reflexivity. }
  split; [apply net0_returned|]. split; [reflexivity|]. split; [apply careful0|].
  split; [exists "kl"; split; reflexivity|].
  split; intros (k & O & P); cbv in O; injection O as <-; discriminate P.
Qed.

(** One-statement chains: a document nobody signed. *)
Lemma c90_witness : exists w dec owns signed tas types start c s,
  ideal w dec owns signed /\ (forall ta, In ta tas -> anchor_known w owns ta) /\
  (forall id, careful dec owns signed id) /\ returned w tas types start c /\ In s c /\
  forall id, ~ signed id (st_jwt s).
Proof.
  exists net_orphan, (fun jwt => if String.eqb (st_jwt orphan) jwt then Some orphan else None), owns0, signed0, tas0, [], LEAF, [orphan], orphan.
  split.
  { split.
    - intros p a s H. cbn [net_orphan tables w_config] in H. unfold lookup in H.
      destruct (String.eqb a LEAF); [|discriminate]. injection H as <-. reflexivity.
    - intros p ep sub iss s H. discriminate H.
    - intros id jwt ks O V. cbn [net_orphan tables w_verify] in V. apply existsb_exists in V.
      destruct V as (k & Hk & V). exists k. auto. }
  split. { intros ta [<-|[]] k [<-|[]]. reflexivity. }
  split.
  { intros id jwt s l k _ D _ K Hk. destruct (String.eqb (st_jwt orphan) jwt); [|discriminate]. injection D as <-.
    injection K as <-. destruct Hk as [<-|[]]. reflexivity. }
  split; [ret|]. split; [now left|].
  intros id (k & O & P). unfold owns0, lookup, key_of in O.
  repeat match type of O with (if ?b then _ else _) = _ => destruct b; [injection O as <-; discriminate P|] end. discriminate.
Qed.
