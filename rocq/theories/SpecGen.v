(** Specification vocabulary for the generator of the metadata types. *)
From Coq Require Import Permutation.
From Verif Require Import Base Gen.
Local Open Scope nat_scope.
Local Open Scope string_scope.

(** The fields of a struct declaration, one by one. *)
Definition fields_of (fs : list fdecl) : list (string * (texpr * option string)) :=
  flat_map (fun f => map (fun n => (n, (fd_type f, fd_tag f))) (fd_names f)) fs.
(** [x] is what is first declared for [n]. *)
Definition declares (fs : list fdecl) (n : string) (x : texpr * option string) : Prop :=
  exists pre post, fields_of fs = (pre ++ (n, x) :: post)%list /\ ~ In n (map fst pre).
Definition declared (fs : list fdecl) (n : string) : Prop := In n (map fst (fields_of fs)).

(** The common fields that a type does not take over. *)
Definition left_out (name n : string) : Prop := name = "FederationEntityMetadata" /\ exists a b, n = a ++ "JWKS" ++ b.

(** The Go syntax of a type. *)
Fixpoint go_text (e : texpr) : string :=
  match e with
  | EName n => n
  | EQual p n => p ++ "." ++ n
  | EStar e' => "*" ++ go_text e'
  | EArray None e' => "[]" ++ go_text e'
  | EArray (Some n) e' => "[" ++ n ++ "]" ++ go_text e'
  | EMap k v => "map[" ++ go_text k ++ "]" ++ go_text v
  | EOther t => t
  end.
(** Names, pointers, slices and maps only. *)
Fixpoint common_syntax (e : texpr) : Prop :=
  match e with
  | EName _ | EQual _ _ => True
  | EStar e' => common_syntax e'
  | EArray o e' => o = None /\ common_syntax e'
  | EMap k v => common_syntax k /\ common_syntax v
  | EOther _ => False
  end.

(** The type of a field in the companion struct from which the field is filled: a pointer
    instead of a named type. *)
Definition companion (e : texpr) : texpr := match e with EName _ => EStar e | _ => e end.

(** The rows of the companion struct belong to those of the struct, line by line. *)
Definition same_lines (rows ptrs : list row) : Prop :=
  map (fun r => (rw_name r, rw_tag r)) ptrs = map (fun r => (rw_name r, rw_tag r)) rows.

(** Any order of the same entries. *)
Definition some_order (order : smap (list fdecl) -> smap (list fdecl)) : Prop := forall m, Permutation m (order m).

(** [d] is the last struct declaration with this name. *)
Definition last_struct (src : gosrc) (n : string) (fs : list fdecl) : Prop :=
  exists pre post, gs_types src = (pre ++ TDecl n (Some fs) :: post)%list /\ forall fs', ~ In (TDecl n (Some fs')) post.

(** The types of all fields have the common syntax. *)
Definition all_common (fs : list fdecl) : Prop := forall f, In f fs -> common_syntax (fd_type f).

(** The letters, and the name with which a type is exported: that of its declaration, with a
    capital. *)
Definition small_letters : list ascii := list_ascii_of_string "abcdefghijklmnopqrstuvwxyz".
Definition capital_letters : list ascii := list_ascii_of_string "ABCDEFGHIJKLMNOPQRSTUVWXYZ".
Definition exported_as (n n' : string) : Prop :=
  exists c s, n = String c s /\
    ((exists i C, nth_error small_letters i = Some c /\ nth_error capital_letters i = Some C /\ n' = String C s) \/
     (~ In c small_letters /\ n' = n)).
