(** Shared basics of the model: outcomes of Go calls, association lists
    (Go maps in iteration order), string helpers. No code of /repo is modelled
    here except where a comment says so. *)
From Coq Require Export List Bool String Ascii ZArith Lia Permutation.
Export ListNotations.
Open Scope list_scope.

(** Outcome of a Go call: a value, a returned error, or a panic.
    Error texts are not modelled. Used at metadataPolicy.go:90-284. *)
Inductive res (A : Type) : Type :=
| Ok (a : A)
| Err
| Panic.
Arguments Ok {A} a.
Arguments Err {A}.
Arguments Panic {A}.

Definition bind {A B} (x : res A) (f : A -> res B) : res B :=
  match x with Ok a => f a | Err => Err | Panic => Panic end.
Notation "x <- a ;; b" := (bind a (fun x => b)) (at level 61, a at next level, right associativity).
Notation "' p <- a ;; b" := (bind a (fun p => b)) (at level 61, p pattern, a at next level, right associativity).

Definition is_ok {A} (x : res A) : bool := match x with Ok _ => true | _ => false end.

(** A Go map[string]V as the list of its entries in iteration order.
    Used at metadataPolicy.go:71-74. *)
Definition smap (V : Type) := list (string * V).

Fixpoint lookup {V} (k : string) (m : smap V) : option V :=
  match m with
  | [] => None
  | (k', v) :: m' => if String.eqb k k' then Some v else lookup k m'
  end.

Definition has {V} (k : string) (m : smap V) : bool :=
  match lookup k m with Some _ => true | None => false end.

Definition keys {V} (m : smap V) : list string := map fst m.

(** m[k] = v on a Go map: overwrite in place or append. Used at metadataPolicy.go:175-232. *)
Fixpoint insert {V} (k : string) (v : V) (m : smap V) : smap V :=
  match m with
  | [] => [(k, v)]
  | (k', v') :: m' => if String.eqb k k' then (k, v) :: m' else (k', v') :: insert k v m'
  end.

(** delete(m, k). Used at entitystatement.go:136-152. *)
Definition remove_key {V} (k : string) (m : smap V) : smap V :=
  filter (fun kv => negb (String.eqb k (fst kv))) m.

(** slices.Contains on strings. Used at trustresolver.go:375-421. *)
Definition mem (s : string) (l : list string) : bool := existsb (String.eqb s) l.

(** tideland slices.Subtract: elements of [l] not in [r]. Used at trustresolver.go:375-421. *)
Definition subtract (l r : list string) : list string :=
  filter (fun x => negb (mem x r)) l.
