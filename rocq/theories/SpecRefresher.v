(** Specification vocabulary for trust mark refreshing: executions and what can be seen of
    them. *)
From Verif Require Import Base GoVal Policy Schema Metadata Chain TrustMark Refresher.
Local Open Scope string_scope.

(** The executions from [s]: any sequence of scheduler choices. The trace lists what was
    done in order. *)
Inductive execution (exp_of : string -> option time) (s : machine) : list event -> machine -> Prop :=
| x_start : execution exp_of s [] s
| x_step tr s1 ch s2 evs : execution exp_of s tr s1 -> machine_step exp_of s1 ch = Some (s2, evs) ->
    execution exp_of s (tr ++ evs) s2.

(** The beginning: a configured mark, no goroutine running. *)
Definition fresh (c : config) (now : time) : machine := Machine c now [].

(** The expiration kept for a mark; a mark without exp claim counts as long expired. *)
Definition kept_exp (exp_of : string -> option time) (j : string) : time :=
  match exp_of j with Some e => e | None => zero_time end.

(** Nothing happens between the two writes that store a mark. *)
Definition whole_stores (tr : list event) : Prop :=
  forall a i j b, tr = (a ++ EJwt i j :: b)%list -> b = [] \/ exists e b', b = EExp i e :: b'.

(** Nothing happens between passing the rate limit and recording the attempt. *)
Definition whole_attempts (tr : list event) : Prop :=
  forall a i t b, tr = (a ++ EPass i t :: b)%list -> b = [] \/ exists t' b', b = EAttempt i t' :: b'.

(** Every request is sent at the time recorded for its attempt. *)
Definition prompt (tr : list event) : Prop :=
  forall i t, In (EAsk i t) tr -> In (EAttempt i t) tr.

(** The marks stored during a trace. *)
Fixpoint stored (tr : list event) : list string :=
  match tr with
  | [] => []
  | EJwt _ j :: r => j :: stored r
  | _ :: r => stored r
  end.

(** The mark held after a trace. *)
Definition held (c : config) (tr : list event) : string := last (stored tr) (cf_jwt c).
