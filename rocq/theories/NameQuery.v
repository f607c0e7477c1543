(** How the name of a query is compared with the names of entities: discovery.go:316-318,
    470-484. *)
From Coq Require Import NArith.
From Verif Require Import Base.
From Verif Require Json.
Local Open Scope nat_scope.
Local Open Scope string_scope.

(** A text as a list of Unicode code points; utf8.RuneLen. Used at discovery.go:482-484. *)
Definition rune_len (r : N) : nat :=
  if N.ltb r 128 then 1 else if N.ltb r 2048 then 2 else if N.ltb r 65536 then 3 else 4.
Definition text_len (l : list N) : nat := fold_right (fun r n => rune_len r + n) 0 l.

(** The rest of the text after the first occurrence of a code point. Used at discovery.go:482-484. *)
Fixpoint after_first (r : N) (l : list N) : option (list N) :=
  match l with
  | [] => None
  | x :: l' => if N.eqb r x then Some l' else after_first r l'
  end.
Fixpoint match_loop (source target : list N) : bool :=
  match source with
  | [] => true
  | r :: source' => match after_first r target with Some target' => match_loop source' target' | None => false end
  end.
Fixpoint same_text (a b : list N) : bool :=
  match a, b with
  | [], [] => true
  | x :: a', y :: b' => N.eqb x y && same_text a' b'
  | _, _ => false
  end.

(** The function match of github.com/lithammer/fuzzysearch v1.1.8 (go.mod:17), which is not in
    /repo and is modelled from its source; [norm] is what NormalizedFold makes of a text: the
    code points without accents, in lower case. Texts are valid UTF-8. Used at
    discovery.go:482-484. *)
Definition fuzzy_match (norm : string -> list N) (query name : string) : bool :=
  let source := norm query in
  let target := norm name in
  if Nat.ltb (text_len target) (text_len source) then false
  else if Nat.eqb (text_len target) (text_len source) && same_text source target then true
  else match_loop source target.

(** NormalizedFold for texts of ASCII characters. Used at discovery.go:482-484. *)
Definition ascii_fold (s : string) : list N := map (fun c => Ascii.N_of_ascii (Json.lower c)) (list_ascii_of_string s).
