(** Specification vocabulary: a collection and what the client of a collection endpoint gets. *)
From Coq Require Import QArith.
From Verif Require Import Base GoVal Policy Schema Metadata Chain Resolver FloatTime Json SpecJson TrustMark Leaf Config SpecConfig Discovery SpecDiscovery Statement Encode SpecEncode Respond SpecRespond Collection.
From Verif Require Import Json.
Local Open Scope nat_scope.
Local Open Scope string_scope.

Definition ui_names : list string := "keywords" :: ui_strings.

(** Information for a user interface as it can be served: its fields have their types, and an
    additional claim with the name of one of them has the type of that field. *)
Definition ui_typed (tag : string) (j : json) : Prop :=
  if String.eqb tag "keywords" then exists l, j = JArr (map JStr l) else exists s, j = JStr s.
Record ui_ok (u : uiinfo) : Prop := UiOk {
  uo_texts : forall tag, In tag ui_strings -> exists s, ui_field u tag = Some (GStr s);
  uo_words : exists l, ui_field u "keywords" = Some (GList l);
  uo_fields : List.length (ui_vals u) = 6;
  uo_once : NoDup (keys (ui_extra u));
  uo_extra : forall k j, lookup k (ui_extra u) = Some j ->
      (In k ui_names /\ ui_typed k j) \/ ~ In (fold_name k) (map fold_name ui_names) }.
(** The client finds every claim with a field in that field, and the others as they are. *)
Record ui_read (u u' : uiinfo) : Prop := UiRead {
  ur_texts : forall tag, In tag ui_strings -> ui_field u' tag = Some (GStr (match ui_json u tag with Some (JStr s) => s | _ => "" end));
  ur_words : exists l, ui_field u' "keywords" = Some (GList l) /\ ui_json u "keywords" = option_map (fun l => JArr (map JStr l)) l;
  ur_extra : forall k, lookup k (ui_extra u') = if mem k ui_names then None else lookup k (ui_extra u) }.

Record entity_ok_coll (jws : string -> bool) (e : collected) : Prop := EntityOkColl {
  eo_marks : Forall (fun t => apart ["trust_mark_type"; "trust_mark"] (ti_extra t)) (ce_marks e);
  eo_chain : forall t, In t (ce_chain e) -> jws t = true;
  eo_once : NoDup (keys (ce_ui e));
  eo_ui : forall ty u, lookup ty (ce_ui e) = Some u -> ui_ok u }.
(** What the client gets of a collected entity. *)
Record entity_read_coll (e e' : collected) : Prop := EntityReadColl {
  er_id : ce_id e' = ce_id e;
  er_types : ce_types e' = ce_types e;
  er_chain : ce_chain e' = ce_chain e;
  er_marks : Forall2 mark_read (ce_marks e) (ce_marks e');
  er_ui : forall ty, match lookup ty (ce_ui e), lookup ty (ce_ui e') with
                     | Some u, Some u' => ui_read u u'
                     | None, None => True
                     | _, _ => False
                     end }.

(** The [i]th anchor, asked as number [n + i], answers its clients with [l]. *)
Definition answers (jws : string -> bool) (endpoint : nat -> string -> string) (body : nat -> string -> option json) (n : nat) (ids : list string) (i : nat)
           (l : list (option collected)) : Prop :=
  exists a, nth_error ids i = Some a /\ endpoint (n + i) a <> "" /\ simple_remote jws (body (n + i) (endpoint (n + i) a)) = Some l.
