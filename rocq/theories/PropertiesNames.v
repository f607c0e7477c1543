(** C155: what a name query finds. *)
From Coq Require Import NArith.
From Verif Require Import Base GoVal Policy Schema Metadata Chain Resolver FloatTime Json TrustMark Discovery SpecMetadata SpecDiscovery SpecSteady
  NameQuery SpecNames NameFacts WitnessResolver WitnessDiscovery WitnessNames.
Local Open Scope nat_scope.
Local Open Scope string_scope.

(** A name matches a query exactly if, accents and case aside, the characters of the query
    are in the name in the same order. *)
Theorem C155_matches : forall norm q name, fuzzy_match norm q name = true <-> in_order (norm q) (norm name).
Proof. exact fuzzy_spec. Qed.
Print Assumptions C155_matches.

(** A part of the name, in upper or lower case, finds it. *)
Theorem C155_part : forall q name pre q' post, name = pre ++ q' ++ post -> in_lower_case q = in_lower_case q' ->
  fuzzy_match ascii_fold q name = true.
Proof. exact part_found. Qed.
Print Assumptions C155_part.
Example C155_part_case : "https://University of Oslo" = "https://" ++ "University" ++ " of Oslo" /\
  in_lower_case "uniVERsity" = in_lower_case "University" /\ in_lower_case "uniVERsity" <> [].
Proof. exact c155_part_case. Qed.

(** From a network that does not change, a collection with a name query returns exactly those
    entities of the collection without the query which have a matching name. *)
Theorem C155_exactly : forall norm fuel ce rq q w w' l l', q <> "" -> ce_fuzzy ce = fuzzy_match norm ->
  network fuel ce (with_name rq q) w -> steady fuel ce (with_name rq q) -> returns w (cr_anchor rq) l ->
  network fuel ce (with_name rq "") w' -> steady fuel ce (with_name rq "") -> returns w' (cr_anchor rq) l' ->
  forall b, In b (map ce_id l) <-> In b (map ce_id l') /\ called_like norm ce q b.
Proof. exact query_exact. Qed.
Print Assumptions C155_exactly.

(** A query with further characters finds no further entity. *)
Theorem C155_longer : forall norm fuel ce rq q q' w w' l l', q <> "" -> q' <> "" -> ce_fuzzy ce = fuzzy_match norm ->
  in_order (norm q) (norm q') ->
  network fuel ce (with_name rq q) w -> steady fuel ce (with_name rq q) -> returns w (cr_anchor rq) l ->
  network fuel ce (with_name rq q') w' -> steady fuel ce (with_name rq q') -> returns w' (cr_anchor rq) l' ->
  incl (map ce_id l') (map ce_id l).
Proof. exact longer_query. Qed.
Print Assumptions C155_longer.
Example C155_case : ce_fuzzy cenv1 = fuzzy_match ascii_fold /\ in_order (ascii_fold "R") (ascii_fold "rS") /\
  (forall q, In q [""; "R"; "rS"] -> network 9 cenv1 (with_name rq0 q) (world1 q) /\ steady 9 cenv1 (with_name rq0 q) /\
    returns (world1 q) (cr_anchor rq0) (found_for q)) /\
  map ce_id (found_for "") = [I1; OP1; I2] /\ map ce_id (found_for "R") = [I1; OP1; I2] /\ map ce_id (found_for "rS") = [OP1] /\
  called_like ascii_fold cenv1 "rS" OP1 /\ ~ called_like ascii_fold cenv1 "rS" I1.
Proof. exact c155_case. Qed.
