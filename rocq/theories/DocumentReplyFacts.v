(** Proofs: replies with documents. *)
From Coq Require Import Lia.
From Verif Require Import Base BaseFacts GoVal Policy Schema Metadata Chain Resolver FloatTime Json Web TrustMark ErrorReply SpecErrorReply ErrorReplyFacts WitnessListReply.
Local Open Scope nat_scope.
Local Open Scope string_scope.

Lemma get_answer read r : http_get (error_of read) r = match reply_answer read r with ABody b => Ok b | _ => Err end.
Proof. destruct r as [|status js body]; [reflexivity|]. cbn [http_get reply_answer]. now destruct (_ && _)%bool. Qed.

Theorem document_from (D : Type) read (parse : string -> res D) r d :
  http_document (error_of read) parse r = Ok d <-> exists body, other_reply read r body /\ parse body = Ok d.
Proof.
  unfold http_document. rewrite get_answer. split.
  - destruct (reply_answer read r) as [|c|b] eqn:A; try discriminate. cbn. intros P. exists b. split; [now apply answer_body|exact P].
  - intros (b & O & P). apply answer_body in O. rewrite O. exact P.
Qed.
Lemma document_case :
  http_document (error_of read_listing) (fun b => Ok b) (HReply 404 true "error") = (Err : res string) /\
  http_document (error_of read_listing) (fun b => Ok b) (HReply 200 false "jwt") = Ok "jwt" /\
  http_document (error_of read_listing) (fun b => Ok b) (HReply 404 false "jwt") = Ok "jwt".
Proof. repeat split; reflexivity. Qed.
