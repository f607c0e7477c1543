(** Specification vocabulary: what error replies mean. *)
From Verif Require Import Base GoVal Policy Schema Metadata Chain Resolver FloatTime Json Web TrustMark ErrorReply.
Local Open Scope nat_scope.
Local Open Scope string_scope.

(** What an error says about the question whether there is a valid chain: (yes, no). If the
    metadata are invalid, there is one. *)
Definition meaning (k : error_kind) : bool * bool :=
  match k with
  | InvalidMetadata => (true, false)
  | InvalidTrustChain => (false, true)
  | _ => (false, false)
  end.

(** The last member called error, in upper or lower case, with a text is [code]. *)
Definition error_member (j : json) (code : string) : Prop :=
  exists l1 n l2, j = JObj (l1 ++ (n, JStr code) :: l2)%list /\ fold_name n = "error" /\
    forall n' s, In (n', JStr s) l2 -> fold_name n' <> "error".
(** The reply is an error reply with this code. *)
Definition error_reply (read : string -> option json) (r : http_reply) (code : string) : Prop :=
  exists status body j, r = HReply status true body /\ 400 <= status /\ read body = Some j /\ error_member j code /\ code <> "".
(** The reply has this body and is not an error reply. *)
Definition other_reply (read : string -> option json) (r : http_reply) (body : string) : Prop :=
  exists status is_json, r = HReply status is_json body /\ forall code, ~ error_reply read r code.
