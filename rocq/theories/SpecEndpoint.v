(** Specification vocabulary: texts at a path of member names in a document. *)
From Coq Require Import QArith.
From Verif Require Import Base GoVal Policy Schema Metadata SpecMetadata Chain FloatTime Json SpecJson SpecDecode Statement SpecStatement.
From Verif Require Import GoVal.
Local Open Scope nat_scope.
Local Open Scope string_scope.

(** The text at the end of the path, "" if there is none. *)
Fixpoint text_at (path : list string) (j : json) : string :=
  match path with
  | [] => match j with JStr s => s | _ => "" end
  | n :: r => text_at r (stated n j)
  end.
(** The text, or the list of texts, of an attribute of metadata. *)
Definition attr_text (tag : string) (m : emeta) : string := match em_tag tag m with Some (VStr s) => s | _ => "" end.
Definition attr_texts (tag : string) (m : emeta) : list string :=
  match em_tag tag m with Some (VSlice TStr _ l) => flat_map (fun v => match v with VStr s => [s] | _ => [] end) l | _ => [] end.
