(** The test vectors of the repository for combining and applying metadata policies:
    metadata-policy-test-vectors-2025-02-13.json, 2019 vectors of which 1939 are different. These
    are tests of the model, not proofs: the unit test metadataPolicy_test.go, which the code
    passes, is run on the model. Generated. *)
From Verif Require Import Base GoVal Policy Schema Metadata.
Local Open Scope string_scope.

(** testVector: metadataPolicy_test.go:11-20, for an RP. [vc_merged] is None if there is no
    merged policy and [vc_resolved] is None if an error is expected. *)
Record vector := V { vc_ta : gpolicy; vc_int : gpolicy; vc_merged : gpolicy; vc_leaf : smap gval; vc_resolved : option (smap gval) }.

(** What encoding/json writes for a metadata struct: omitempty leaves out the zero values
    and empty slices and maps. Used at metadataPolicy_test.go:11-20. *)
Definition empty_value (v : gval) : bool :=
  match v with
  | VBool b => negb b
  | VInt z => Z.eqb z 0
  | VStr s => String.eqb s ""
  | VSlice _ _ [] | VMap _ _ [] | VJwks None | VNil => true
  | _ => false
  end.
Definition written (m : emeta) : list (frow * gval) :=
  filter (fun fv => negb (fr_omitempty (fst fv) && empty_value (snd fv))) (em_fields m).
Fixpoint same_written (a b : list (frow * gval)) : bool :=
  match a, b with
  | [], [] => true
  | (r, v) :: a', (r', v') :: b' => (String.eqb (fr_tag r) (fr_tag r') && deep_eq v v' && same_written a' b')%bool
  | _, _ => false
  end.
(** As in the unit test, the zero struct is expected if there is neither an error nor an
    expected result. Used at metadataPolicy_test.go:11-20. *)
Definition expected (v : vector) (r : res emeta) : bool :=
  match r, vc_resolved v with
  | Err, None => true
  | Ok m, Some o => match decode_meta rp_schema o with Ok m' => same_written (written m) (written m') | _ => false end
  | Ok m, None => same_written (written m) (written (zero_meta rp_schema))
  | _, _ => false
  end.

(** TestApplyPolicies: metadataPolicy_test.go:75-118 *)
Definition test_apply (v : vector) : bool :=
  match vc_merged v with
  | None => true
  | Some p => expected v (m <- decode_meta rp_schema (vc_leaf v) ;; apply_policy m p)
  end.
(** TestMergeAndApplyMetadataPolicies: metadataPolicy_test.go:120-177 *)
Definition test_merge_apply (v : vector) : bool :=
  expected v (p <- combine2 (vc_ta v) (vc_int v) ;; m <- decode_meta rp_schema (vc_leaf v) ;; apply_policy m (pol p)).

Definition s0 := "id_token_signed_response_alg".
Definition s1 := "value".
Definition s2 := "RS256".
Definition s3 := "essential".
Definition s4 := "EdDSA".
Definition s5 := "logo_uri".
Definition s6 := "https://example.com/logo.png".
Definition s7 := "https://images.example.com/logo.jpg".
Definition s8 := "grant_types".
Definition s9 := "authorization_code".
Definition s10 := "password".
Definition s11 := "refresh_token".
Definition s12 := "require_auth_time".
Definition s13 := "add".
Definition s14 := "default".
Definition s15 := "one_of".
Definition s16 := "ES256".
Definition s17 := "https://example.org/logo.png".
Definition s18 := "subset_of".
Definition s19 := "superset_of".
Definition v0 : gval := VStr s2.
Definition v1 : gval := VBool true.
Definition v2 : gval := VStr s4.
Definition v3 : gval := VNil.
Definition v4 : gval := VStr s6.
Definition v5 : gval := VStr s7.
Definition v6 : gval := VSlice TAny false [].
Definition v7 : gval := VStr s9.
Definition v8 : gval := VSlice TAny false [v7].
Definition v9 : gval := VStr s10.
Definition v10 : gval := VSlice TAny false [v9].
Definition v11 : gval := VStr s11.
Definition v12 : gval := VSlice TAny false [v7; v11].
Definition v13 : gval := VSlice TAny false [v7; v9].
Definition v14 : gval := VBool false.
Definition v15 : gval := VStr s16.
Definition v16 : gval := VSlice TAny false [v0; v15].
Definition v17 : gval := VStr s17.
Definition v18 : gval := VSlice TAny false [v4; v17].
Definition v19 : gval := VSlice TAny false [v9; v7].
Definition v20 : gval := VSlice TAny false [v9; v7; v11].
Definition v21 : gval := VSlice TAny false [v7; v9; v11].
Definition e0 : entry := [(s1, v0); (s3, v1)].
Definition e1 : entry := [(s1, v0)].
Definition e2 : entry := [(s1, v3)].
Definition e3 : entry := [(s1, v4)].
Definition e4 : entry := [(s1, v6); (s3, v1)].
Definition e5 : entry := [(s1, v8); (s3, v1)].
Definition e6 : entry := [(s1, v8)].
Definition e7 : entry := [(s1, v6)].
Definition e8 : entry := [(s1, v12); (s3, v1)].
Definition e9 : entry := [(s1, v12)].
Definition e10 : entry := [(s1, v1)].
Definition e11 : entry := [(s1, v14)].
Definition e12 : entry := [(s13, v8); (s3, v1)].
Definition e13 : entry := [(s13, v8)].
Definition e14 : entry := [(s13, v12); (s3, v1)].
Definition e15 : entry := [(s13, v12)].
Definition e16 : entry := [(s14, v0); (s3, v1)].
Definition e17 : entry := [(s14, v0); (s1, v0); (s3, v1)].
Definition e18 : entry := [(s14, v0)].
Definition e19 : entry := [(s14, v0); (s1, v0)].
Definition e20 : entry := [(s14, v4)].
Definition e21 : entry := [(s14, v8); (s3, v1)].
Definition e22 : entry := [(s14, v8); (s1, v6); (s3, v1)].
Definition e23 : entry := [(s14, v8)].
Definition e24 : entry := [(s14, v8); (s1, v6)].
Definition e25 : entry := [(s14, v12); (s3, v1)].
Definition e26 : entry := [(s14, v12); (s1, v6); (s3, v1)].
Definition e27 : entry := [(s14, v12)].
Definition e28 : entry := [(s14, v12); (s1, v6)].
Definition e29 : entry := [(s14, v12); (s1, v8); (s3, v1)].
Definition e30 : entry := [(s14, v12); (s1, v8)].
Definition e31 : entry := [(s15, v16); (s3, v1)].
Definition e32 : entry := [(s15, v16); (s1, v0); (s3, v1)].
Definition e33 : entry := [(s15, v16)].
Definition e34 : entry := [(s15, v16); (s1, v0)].
Definition e35 : entry := [(s15, v18)].
Definition e36 : entry := [(s18, v8); (s3, v1)].
Definition e37 : entry := [(s18, v8); (s1, v6); (s3, v1)].
Definition e38 : entry := [(s18, v8)].
Definition e39 : entry := [(s18, v8); (s1, v6)].
Definition e40 : entry := [(s18, v12); (s3, v1)].
Definition e41 : entry := [(s18, v12); (s1, v6); (s3, v1)].
Definition e42 : entry := [(s18, v12)].
Definition e43 : entry := [(s18, v12); (s1, v6)].
Definition e44 : entry := [(s18, v12); (s1, v8); (s3, v1)].
Definition e45 : entry := [(s18, v12); (s1, v8)].
Definition e46 : entry := [(s19, v8); (s3, v1)].
Definition e47 : entry := [(s19, v8)].
Definition e48 : entry := [(s19, v12); (s3, v1)].
Definition e49 : entry := [(s19, v12)].
Definition e50 : entry := [(s13, v6); (s3, v1)].
Definition e51 : entry := [(s13, v6); (s1, v8); (s3, v1)].
Definition e52 : entry := [(s13, v6)].
Definition e53 : entry := [(s13, v6); (s1, v8)].
Definition e54 : entry := [(s13, v6); (s1, v12); (s3, v1)].
Definition e55 : entry := [(s13, v6); (s1, v12)].
Definition e56 : entry := [(s13, v8); (s1, v12); (s3, v1)].
Definition e57 : entry := [(s13, v8); (s1, v12)].
Definition e58 : entry := [(s13, v6); (s14, v8); (s3, v1)].
Definition e59 : entry := [(s13, v6); (s14, v8)].
Definition e60 : entry := [(s13, v6); (s14, v12); (s3, v1)].
Definition e61 : entry := [(s13, v6); (s14, v12)].
Definition e62 : entry := [(s13, v8); (s14, v12); (s3, v1)].
Definition e63 : entry := [(s13, v8); (s14, v12)].
Definition e64 : entry := [(s13, v6); (s18, v8); (s3, v1)].
Definition e65 : entry := [(s13, v6); (s18, v8)].
Definition e66 : entry := [(s13, v6); (s18, v12); (s3, v1)].
Definition e67 : entry := [(s13, v6); (s18, v12)].
Definition e68 : entry := [(s13, v8); (s18, v12); (s3, v1)].
Definition e69 : entry := [(s13, v8); (s18, v12)].
Definition e70 : entry := [(s13, v6); (s19, v8); (s3, v1)].
Definition e71 : entry := [(s13, v6); (s19, v8)].
Definition e72 : entry := [(s13, v6); (s19, v12); (s3, v1)].
Definition e73 : entry := [(s13, v6); (s19, v12)].
Definition e74 : entry := [(s13, v8); (s19, v12); (s3, v1)].
Definition e75 : entry := [(s13, v8); (s19, v12)].
Definition e76 : entry := [(s14, v6); (s3, v1)].
Definition e77 : entry := [(s14, v6); (s1, v8); (s3, v1)].
Definition e78 : entry := [(s14, v6)].
Definition e79 : entry := [(s14, v6); (s1, v8)].
Definition e80 : entry := [(s14, v6); (s1, v12); (s3, v1)].
Definition e81 : entry := [(s14, v6); (s1, v12)].
Definition e82 : entry := [(s14, v8); (s1, v12); (s3, v1)].
Definition e83 : entry := [(s14, v8); (s1, v12)].
Definition e84 : entry := [(s14, v1)].
Definition e85 : entry := [(s14, v14)].
Definition e86 : entry := [(s13, v8); (s14, v6); (s3, v1)].
Definition e87 : entry := [(s13, v8); (s14, v6)].
Definition e88 : entry := [(s13, v12); (s14, v6); (s3, v1)].
Definition e89 : entry := [(s13, v12); (s14, v6)].
Definition e90 : entry := [(s13, v12); (s14, v8); (s3, v1)].
Definition e91 : entry := [(s13, v12); (s14, v8)].
Definition e92 : entry := [(s14, v0); (s15, v16); (s3, v1)].
Definition e93 : entry := [(s14, v0); (s15, v16)].
Definition e94 : entry := [(s14, v6); (s18, v8); (s3, v1)].
Definition e95 : entry := [(s14, v6); (s18, v8)].
Definition e96 : entry := [(s14, v6); (s18, v12); (s3, v1)].
Definition e97 : entry := [(s14, v6); (s18, v12)].
Definition e98 : entry := [(s14, v8); (s18, v12); (s3, v1)].
Definition e99 : entry := [(s14, v8); (s18, v12)].
Definition e100 : entry := [(s14, v6); (s19, v8); (s3, v1)].
Definition e101 : entry := [(s14, v6); (s19, v8)].
Definition e102 : entry := [(s14, v6); (s19, v12); (s3, v1)].
Definition e103 : entry := [(s14, v6); (s19, v12)].
Definition e104 : entry := [(s14, v8); (s19, v12); (s3, v1)].
Definition e105 : entry := [(s14, v8); (s19, v12)].
Definition e106 : entry := [(s18, v6); (s3, v1)].
Definition e107 : entry := [(s18, v6)].
Definition e108 : entry := [(s14, v8); (s18, v6); (s3, v1)].
Definition e109 : entry := [(s14, v8); (s18, v6)].
Definition e110 : entry := [(s14, v12); (s18, v6); (s3, v1)].
Definition e111 : entry := [(s14, v12); (s18, v6)].
Definition e112 : entry := [(s14, v12); (s18, v8); (s3, v1)].
Definition e113 : entry := [(s14, v12); (s18, v8)].
Definition e114 : entry := [(s19, v6); (s3, v1)].
Definition e115 : entry := [(s19, v6); (s1, v8); (s3, v1)].
Definition e116 : entry := [(s19, v6)].
Definition e117 : entry := [(s19, v6); (s1, v8)].
Definition e118 : entry := [(s19, v6); (s1, v12); (s3, v1)].
Definition e119 : entry := [(s19, v6); (s1, v12)].
Definition e120 : entry := [(s19, v8); (s1, v12); (s3, v1)].
Definition e121 : entry := [(s19, v8); (s1, v12)].
Definition e122 : entry := [(s13, v8); (s19, v6); (s3, v1)].
Definition e123 : entry := [(s13, v8); (s19, v6)].
Definition e124 : entry := [(s13, v12); (s19, v6); (s3, v1)].
Definition e125 : entry := [(s13, v12); (s19, v6)].
Definition e126 : entry := [(s13, v12); (s19, v8); (s3, v1)].
Definition e127 : entry := [(s13, v12); (s19, v8)].
Definition e128 : entry := [(s19, v6); (s14, v8); (s3, v1)].
Definition e129 : entry := [(s19, v6); (s14, v8)].
Definition e130 : entry := [(s19, v6); (s14, v12); (s3, v1)].
Definition e131 : entry := [(s19, v6); (s14, v12)].
Definition e132 : entry := [(s19, v8); (s14, v12); (s3, v1)].
Definition e133 : entry := [(s19, v8); (s14, v12)].
Definition e134 : entry := [(s19, v6); (s18, v8); (s3, v1)].
Definition e135 : entry := [(s19, v6); (s18, v8)].
Definition e136 : entry := [(s19, v6); (s18, v12); (s3, v1)].
Definition e137 : entry := [(s19, v6); (s18, v12)].
Definition e138 : entry := [(s19, v8); (s18, v12); (s3, v1)].
Definition e139 : entry := [(s19, v8); (s18, v12)].
Definition e140 : entry := [(s3, v1)].
Definition e141 : entry := [(s3, v14)].
Definition e142 : entry := [(s1, v3); (s3, v14)].
Definition vectors0 : list (nat * vector) :=
  [ (1, V (Some [(s0, e0)]) (Some [(s0, e0)]) (Some [(s0, e0)]) ([(s0, v0)]) (Some [(s0, v0)]))
  ; (2, V (Some [(s0, e0)]) (Some [(s0, e1)]) (Some [(s0, e0)]) ([(s0, v0)]) (Some [(s0, v0)]))
  ; (3, V (Some [(s0, e1)]) (Some [(s0, e0)]) (Some [(s0, e0)]) ([(s0, v0)]) (Some [(s0, v0)]))
  ; (4, V (Some [(s0, e1)]) (Some [(s0, e1)]) (Some [(s0, e1)]) ([(s0, v0)]) (Some [(s0, v0)]))
  ; (5, V (Some [(s0, e0)]) (Some [(s0, e0)]) (Some [(s0, e0)]) ([(s0, v2)]) (Some [(s0, v0)]))
  ; (6, V (Some [(s0, e0)]) (Some [(s0, e1)]) (Some [(s0, e0)]) ([(s0, v2)]) (Some [(s0, v0)]))
  ; (7, V (Some [(s0, e1)]) (Some [(s0, e0)]) (Some [(s0, e0)]) ([(s0, v2)]) (Some [(s0, v0)]))
  ; (8, V (Some [(s0, e1)]) (Some [(s0, e1)]) (Some [(s0, e1)]) ([(s0, v2)]) (Some [(s0, v0)]))
  ; (9, V (Some [(s0, e0)]) (Some [(s0, e0)]) (Some [(s0, e0)]) ([]) (Some [(s0, v0)]))
  ; (10, V (Some [(s0, e0)]) (Some [(s0, e1)]) (Some [(s0, e0)]) ([]) (Some [(s0, v0)]))
  ; (11, V (Some [(s0, e1)]) (Some [(s0, e0)]) (Some [(s0, e0)]) ([]) (Some [(s0, v0)]))
  ; (12, V (Some [(s0, e1)]) (Some [(s0, e1)]) (Some [(s0, e1)]) ([]) (Some [(s0, v0)]))
  ; (13, V (Some [(s5, e2)]) (Some [(s5, e3)]) (None) ([(s5, v4)]) (None))
  ; (14, V (Some [(s5, e2)]) (Some [(s5, e3)]) (None) ([(s5, v5)]) (None))
  ; (15, V (Some [(s5, e2)]) (Some [(s5, e3)]) (None) ([]) (None))
  ; (16, V (Some [(s8, e4)]) (Some [(s8, e5)]) (None) ([(s8, v8)]) (None))
  ; (17, V (Some [(s8, e4)]) (Some [(s8, e6)]) (None) ([(s8, v8)]) (None))
  ; (18, V (Some [(s8, e7)]) (Some [(s8, e5)]) (None) ([(s8, v8)]) (None))
  ; (19, V (Some [(s8, e7)]) (Some [(s8, e6)]) (None) ([(s8, v8)]) (None))
  ; (20, V (Some [(s8, e4)]) (Some [(s8, e5)]) (None) ([(s8, v10)]) (None))
  ; (21, V (Some [(s8, e4)]) (Some [(s8, e6)]) (None) ([(s8, v10)]) (None))
  ; (22, V (Some [(s8, e7)]) (Some [(s8, e5)]) (None) ([(s8, v10)]) (None))
  ; (23, V (Some [(s8, e7)]) (Some [(s8, e6)]) (None) ([(s8, v10)]) (None))
  ; (24, V (Some [(s8, e4)]) (Some [(s8, e5)]) (None) ([(s8, v12)]) (None))
  ; (25, V (Some [(s8, e4)]) (Some [(s8, e6)]) (None) ([(s8, v12)]) (None))
  ; (26, V (Some [(s8, e7)]) (Some [(s8, e5)]) (None) ([(s8, v12)]) (None))
  ; (27, V (Some [(s8, e7)]) (Some [(s8, e6)]) (None) ([(s8, v12)]) (None))
  ; (28, V (Some [(s8, e4)]) (Some [(s8, e5)]) (None) ([(s8, v13)]) (None))
  ; (29, V (Some [(s8, e4)]) (Some [(s8, e6)]) (None) ([(s8, v13)]) (None))
  ; (30, V (Some [(s8, e7)]) (Some [(s8, e5)]) (None) ([(s8, v13)]) (None))
  ; (31, V (Some [(s8, e7)]) (Some [(s8, e6)]) (None) ([(s8, v13)]) (None))
  ; (32, V (Some [(s8, e4)]) (Some [(s8, e5)]) (None) ([(s8, v6)]) (None))
  ; (33, V (Some [(s8, e4)]) (Some [(s8, e6)]) (None) ([(s8, v6)]) (None))
  ; (34, V (Some [(s8, e7)]) (Some [(s8, e5)]) (None) ([(s8, v6)]) (None))
  ; (35, V (Some [(s8, e7)]) (Some [(s8, e6)]) (None) ([(s8, v6)]) (None))
  ; (36, V (Some [(s8, e4)]) (Some [(s8, e5)]) (None) ([]) (None))
  ; (37, V (Some [(s8, e4)]) (Some [(s8, e6)]) (None) ([]) (None))
  ; (38, V (Some [(s8, e7)]) (Some [(s8, e5)]) (None) ([]) (None))
  ; (39, V (Some [(s8, e7)]) (Some [(s8, e6)]) (None) ([]) (None))
  ; (40, V (Some [(s8, e4)]) (Some [(s8, e8)]) (None) ([(s8, v8)]) (None))
  ; (41, V (Some [(s8, e4)]) (Some [(s8, e9)]) (None) ([(s8, v8)]) (None))
  ; (42, V (Some [(s8, e7)]) (Some [(s8, e8)]) (None) ([(s8, v8)]) (None))
  ; (43, V (Some [(s8, e7)]) (Some [(s8, e9)]) (None) ([(s8, v8)]) (None))
  ; (44, V (Some [(s8, e4)]) (Some [(s8, e8)]) (None) ([(s8, v10)]) (None))
  ; (45, V (Some [(s8, e4)]) (Some [(s8, e9)]) (None) ([(s8, v10)]) (None))
  ; (46, V (Some [(s8, e7)]) (Some [(s8, e8)]) (None) ([(s8, v10)]) (None))
  ; (47, V (Some [(s8, e7)]) (Some [(s8, e9)]) (None) ([(s8, v10)]) (None))
  ; (48, V (Some [(s8, e4)]) (Some [(s8, e8)]) (None) ([(s8, v12)]) (None))
  ; (49, V (Some [(s8, e4)]) (Some [(s8, e9)]) (None) ([(s8, v12)]) (None))
  ; (50, V (Some [(s8, e7)]) (Some [(s8, e8)]) (None) ([(s8, v12)]) (None))
  ; (51, V (Some [(s8, e7)]) (Some [(s8, e9)]) (None) ([(s8, v12)]) (None))
  ; (52, V (Some [(s8, e4)]) (Some [(s8, e8)]) (None) ([(s8, v13)]) (None))
  ; (53, V (Some [(s8, e4)]) (Some [(s8, e9)]) (None) ([(s8, v13)]) (None))
  ; (54, V (Some [(s8, e7)]) (Some [(s8, e8)]) (None) ([(s8, v13)]) (None))
  ; (55, V (Some [(s8, e7)]) (Some [(s8, e9)]) (None) ([(s8, v13)]) (None))
  ; (56, V (Some [(s8, e4)]) (Some [(s8, e8)]) (None) ([(s8, v6)]) (None))
  ; (57, V (Some [(s8, e4)]) (Some [(s8, e9)]) (None) ([(s8, v6)]) (None))
  ; (58, V (Some [(s8, e7)]) (Some [(s8, e8)]) (None) ([(s8, v6)]) (None))
  ; (59, V (Some [(s8, e7)]) (Some [(s8, e9)]) (None) ([(s8, v6)]) (None))
  ; (60, V (Some [(s8, e4)]) (Some [(s8, e8)]) (None) ([]) (None))
  ; (61, V (Some [(s8, e4)]) (Some [(s8, e9)]) (None) ([]) (None))
  ; (62, V (Some [(s8, e7)]) (Some [(s8, e8)]) (None) ([]) (None))
  ; (63, V (Some [(s8, e7)]) (Some [(s8, e9)]) (None) ([]) (None))
  ; (64, V (Some [(s8, e5)]) (Some [(s8, e8)]) (None) ([(s8, v8)]) (None))
  ; (65, V (Some [(s8, e5)]) (Some [(s8, e9)]) (None) ([(s8, v8)]) (None))
  ; (66, V (Some [(s8, e6)]) (Some [(s8, e8)]) (None) ([(s8, v8)]) (None))
  ; (67, V (Some [(s8, e6)]) (Some [(s8, e9)]) (None) ([(s8, v8)]) (None))
  ; (68, V (Some [(s8, e5)]) (Some [(s8, e8)]) (None) ([(s8, v10)]) (None))
  ; (69, V (Some [(s8, e5)]) (Some [(s8, e9)]) (None) ([(s8, v10)]) (None))
  ; (70, V (Some [(s8, e6)]) (Some [(s8, e8)]) (None) ([(s8, v10)]) (None))
  ; (71, V (Some [(s8, e6)]) (Some [(s8, e9)]) (None) ([(s8, v10)]) (None))
  ; (72, V (Some [(s8, e5)]) (Some [(s8, e8)]) (None) ([(s8, v12)]) (None))
  ; (73, V (Some [(s8, e5)]) (Some [(s8, e9)]) (None) ([(s8, v12)]) (None))
  ; (74, V (Some [(s8, e6)]) (Some [(s8, e8)]) (None) ([(s8, v12)]) (None))
  ; (75, V (Some [(s8, e6)]) (Some [(s8, e9)]) (None) ([(s8, v12)]) (None))
  ; (76, V (Some [(s8, e5)]) (Some [(s8, e8)]) (None) ([(s8, v13)]) (None))
  ; (77, V (Some [(s8, e5)]) (Some [(s8, e9)]) (None) ([(s8, v13)]) (None))
  ; (78, V (Some [(s8, e6)]) (Some [(s8, e8)]) (None) ([(s8, v13)]) (None))
  ; (79, V (Some [(s8, e6)]) (Some [(s8, e9)]) (None) ([(s8, v13)]) (None))
  ; (80, V (Some [(s8, e5)]) (Some [(s8, e8)]) (None) ([(s8, v6)]) (None))
  ; (81, V (Some [(s8, e5)]) (Some [(s8, e9)]) (None) ([(s8, v6)]) (None))
  ; (82, V (Some [(s8, e6)]) (Some [(s8, e8)]) (None) ([(s8, v6)]) (None))
  ; (83, V (Some [(s8, e6)]) (Some [(s8, e9)]) (None) ([(s8, v6)]) (None))
  ; (84, V (Some [(s8, e5)]) (Some [(s8, e8)]) (None) ([]) (None))
  ; (85, V (Some [(s8, e5)]) (Some [(s8, e9)]) (None) ([]) (None))
  ; (86, V (Some [(s8, e6)]) (Some [(s8, e8)]) (None) ([]) (None))
  ; (87, V (Some [(s8, e6)]) (Some [(s8, e9)]) (None) ([]) (None))
  ; (88, V (Some [(s12, e10)]) (Some [(s12, e10)]) (Some [(s12, e10)]) ([(s12, v1)]) (Some [(s12, v1)]))
  ; (89, V (Some [(s12, e10)]) (Some [(s12, e11)]) (None) ([(s12, v1)]) (None))
  ; (90, V (Some [(s12, e11)]) (Some [(s12, e10)]) (None) ([(s12, v1)]) (None))
  ; (91, V (Some [(s12, e11)]) (Some [(s12, e11)]) (Some [(s12, e11)]) ([(s12, v1)]) (Some [(s12, v14)]))
  ; (92, V (Some [(s12, e10)]) (Some [(s12, e10)]) (Some [(s12, e10)]) ([(s12, v14)]) (Some [(s12, v1)]))
  ; (93, V (Some [(s12, e10)]) (Some [(s12, e11)]) (None) ([(s12, v14)]) (None))
  ; (94, V (Some [(s12, e11)]) (Some [(s12, e10)]) (None) ([(s12, v14)]) (None))
  ; (95, V (Some [(s12, e11)]) (Some [(s12, e11)]) (Some [(s12, e11)]) ([(s12, v14)]) (Some [(s12, v14)]))
  ; (112, V (Some [(s8, e4)]) (Some [(s8, e12)]) (None) ([(s8, v8)]) (None))
  ; (113, V (Some [(s8, e4)]) (Some [(s8, e13)]) (None) ([(s8, v8)]) (None))
  ; (114, V (Some [(s8, e7)]) (Some [(s8, e12)]) (None) ([(s8, v8)]) (None))
  ; (115, V (Some [(s8, e7)]) (Some [(s8, e13)]) (None) ([(s8, v8)]) (None))
  ; (116, V (Some [(s8, e4)]) (Some [(s8, e12)]) (None) ([(s8, v10)]) (None))
  ; (117, V (Some [(s8, e4)]) (Some [(s8, e13)]) (None) ([(s8, v10)]) (None))
  ; (118, V (Some [(s8, e7)]) (Some [(s8, e12)]) (None) ([(s8, v10)]) (None))
  ; (119, V (Some [(s8, e7)]) (Some [(s8, e13)]) (None) ([(s8, v10)]) (None))
  ; (120, V (Some [(s8, e4)]) (Some [(s8, e12)]) (None) ([(s8, v12)]) (None))
  ; (121, V (Some [(s8, e4)]) (Some [(s8, e13)]) (None) ([(s8, v12)]) (None))
  ; (122, V (Some [(s8, e7)]) (Some [(s8, e12)]) (None) ([(s8, v12)]) (None))
  ; (123, V (Some [(s8, e7)]) (Some [(s8, e13)]) (None) ([(s8, v12)]) (None))
  ; (124, V (Some [(s8, e4)]) (Some [(s8, e12)]) (None) ([(s8, v13)]) (None))
  ; (125, V (Some [(s8, e4)]) (Some [(s8, e13)]) (None) ([(s8, v13)]) (None))
  ; (126, V (Some [(s8, e7)]) (Some [(s8, e12)]) (None) ([(s8, v13)]) (None))
  ; (127, V (Some [(s8, e7)]) (Some [(s8, e13)]) (None) ([(s8, v13)]) (None))
  ; (128, V (Some [(s8, e4)]) (Some [(s8, e12)]) (None) ([(s8, v6)]) (None))
  ; (129, V (Some [(s8, e4)]) (Some [(s8, e13)]) (None) ([(s8, v6)]) (None))
  ; (130, V (Some [(s8, e7)]) (Some [(s8, e12)]) (None) ([(s8, v6)]) (None))
  ; (131, V (Some [(s8, e7)]) (Some [(s8, e13)]) (None) ([(s8, v6)]) (None))
  ; (132, V (Some [(s8, e4)]) (Some [(s8, e12)]) (None) ([]) (None))
  ; (133, V (Some [(s8, e4)]) (Some [(s8, e13)]) (None) ([]) (None))
  ; (134, V (Some [(s8, e7)]) (Some [(s8, e12)]) (None) ([]) (None))
  ; (135, V (Some [(s8, e7)]) (Some [(s8, e13)]) (None) ([]) (None))
  ; (136, V (Some [(s8, e4)]) (Some [(s8, e14)]) (None) ([(s8, v8)]) (None))
  ; (137, V (Some [(s8, e4)]) (Some [(s8, e15)]) (None) ([(s8, v8)]) (None))
  ; (138, V (Some [(s8, e7)]) (Some [(s8, e14)]) (None) ([(s8, v8)]) (None))
  ; (139, V (Some [(s8, e7)]) (Some [(s8, e15)]) (None) ([(s8, v8)]) (None))
  ; (140, V (Some [(s8, e4)]) (Some [(s8, e14)]) (None) ([(s8, v10)]) (None))
  ; (141, V (Some [(s8, e4)]) (Some [(s8, e15)]) (None) ([(s8, v10)]) (None))
  ; (142, V (Some [(s8, e7)]) (Some [(s8, e14)]) (None) ([(s8, v10)]) (None))
  ; (143, V (Some [(s8, e7)]) (Some [(s8, e15)]) (None) ([(s8, v10)]) (None))
  ; (144, V (Some [(s8, e4)]) (Some [(s8, e14)]) (None) ([(s8, v12)]) (None))
  ; (145, V (Some [(s8, e4)]) (Some [(s8, e15)]) (None) ([(s8, v12)]) (None))
  ; (146, V (Some [(s8, e7)]) (Some [(s8, e14)]) (None) ([(s8, v12)]) (None))
  ; (147, V (Some [(s8, e7)]) (Some [(s8, e15)]) (None) ([(s8, v12)]) (None))
  ; (148, V (Some [(s8, e4)]) (Some [(s8, e14)]) (None) ([(s8, v13)]) (None))
  ; (149, V (Some [(s8, e4)]) (Some [(s8, e15)]) (None) ([(s8, v13)]) (None))
  ; (150, V (Some [(s8, e7)]) (Some [(s8, e14)]) (None) ([(s8, v13)]) (None))
  ; (151, V (Some [(s8, e7)]) (Some [(s8, e15)]) (None) ([(s8, v13)]) (None))
  ; (152, V (Some [(s8, e4)]) (Some [(s8, e14)]) (None) ([(s8, v6)]) (None))
  ; (153, V (Some [(s8, e4)]) (Some [(s8, e15)]) (None) ([(s8, v6)]) (None))
  ; (154, V (Some [(s8, e7)]) (Some [(s8, e14)]) (None) ([(s8, v6)]) (None))
  ; (155, V (Some [(s8, e7)]) (Some [(s8, e15)]) (None) ([(s8, v6)]) (None))
  ; (156, V (Some [(s8, e4)]) (Some [(s8, e14)]) (None) ([]) (None))
  ; (157, V (Some [(s8, e4)]) (Some [(s8, e15)]) (None) ([]) (None))
  ; (158, V (Some [(s8, e7)]) (Some [(s8, e14)]) (None) ([]) (None))
  ; (159, V (Some [(s8, e7)]) (Some [(s8, e15)]) (None) ([]) (None))
  ; (160, V (Some [(s8, e5)]) (Some [(s8, e14)]) (None) ([(s8, v8)]) (None))
  ; (161, V (Some [(s8, e5)]) (Some [(s8, e15)]) (None) ([(s8, v8)]) (None))
  ; (162, V (Some [(s8, e6)]) (Some [(s8, e14)]) (None) ([(s8, v8)]) (None))
  ; (163, V (Some [(s8, e6)]) (Some [(s8, e15)]) (None) ([(s8, v8)]) (None))
  ; (164, V (Some [(s8, e5)]) (Some [(s8, e14)]) (None) ([(s8, v10)]) (None))
  ; (165, V (Some [(s8, e5)]) (Some [(s8, e15)]) (None) ([(s8, v10)]) (None))
  ; (166, V (Some [(s8, e6)]) (Some [(s8, e14)]) (None) ([(s8, v10)]) (None))
  ; (167, V (Some [(s8, e6)]) (Some [(s8, e15)]) (None) ([(s8, v10)]) (None))
  ; (168, V (Some [(s8, e5)]) (Some [(s8, e14)]) (None) ([(s8, v12)]) (None))
  ; (169, V (Some [(s8, e5)]) (Some [(s8, e15)]) (None) ([(s8, v12)]) (None))
  ; (170, V (Some [(s8, e6)]) (Some [(s8, e14)]) (None) ([(s8, v12)]) (None))
  ; (171, V (Some [(s8, e6)]) (Some [(s8, e15)]) (None) ([(s8, v12)]) (None))
  ; (172, V (Some [(s8, e5)]) (Some [(s8, e14)]) (None) ([(s8, v13)]) (None))
  ; (173, V (Some [(s8, e5)]) (Some [(s8, e15)]) (None) ([(s8, v13)]) (None))
  ; (174, V (Some [(s8, e6)]) (Some [(s8, e14)]) (None) ([(s8, v13)]) (None))
  ; (175, V (Some [(s8, e6)]) (Some [(s8, e15)]) (None) ([(s8, v13)]) (None))
  ; (176, V (Some [(s8, e5)]) (Some [(s8, e14)]) (None) ([(s8, v6)]) (None))
  ; (177, V (Some [(s8, e5)]) (Some [(s8, e15)]) (None) ([(s8, v6)]) (None))
  ; (178, V (Some [(s8, e6)]) (Some [(s8, e14)]) (None) ([(s8, v6)]) (None))
  ; (179, V (Some [(s8, e6)]) (Some [(s8, e15)]) (None) ([(s8, v6)]) (None))
  ; (180, V (Some [(s8, e5)]) (Some [(s8, e14)]) (None) ([]) (None))
  ; (181, V (Some [(s8, e5)]) (Some [(s8, e15)]) (None) ([]) (None))
  ; (182, V (Some [(s8, e6)]) (Some [(s8, e14)]) (None) ([]) (None))
  ; (183, V (Some [(s8, e6)]) (Some [(s8, e15)]) (None) ([]) (None))
  ; (184, V (Some [(s0, e0)]) (Some [(s0, e16)]) (Some [(s0, e17)]) ([(s0, v0)]) (Some [(s0, v0)]))
  ; (185, V (Some [(s0, e0)]) (Some [(s0, e18)]) (Some [(s0, e17)]) ([(s0, v0)]) (Some [(s0, v0)]))
  ; (186, V (Some [(s0, e1)]) (Some [(s0, e16)]) (Some [(s0, e17)]) ([(s0, v0)]) (Some [(s0, v0)]))
  ; (187, V (Some [(s0, e1)]) (Some [(s0, e18)]) (Some [(s0, e19)]) ([(s0, v0)]) (Some [(s0, v0)]))
  ; (188, V (Some [(s0, e0)]) (Some [(s0, e16)]) (Some [(s0, e17)]) ([(s0, v2)]) (Some [(s0, v0)]))
  ; (189, V (Some [(s0, e0)]) (Some [(s0, e18)]) (Some [(s0, e17)]) ([(s0, v2)]) (Some [(s0, v0)]))
  ; (190, V (Some [(s0, e1)]) (Some [(s0, e16)]) (Some [(s0, e17)]) ([(s0, v2)]) (Some [(s0, v0)]))
  ; (191, V (Some [(s0, e1)]) (Some [(s0, e18)]) (Some [(s0, e19)]) ([(s0, v2)]) (Some [(s0, v0)]))
  ; (192, V (Some [(s0, e0)]) (Some [(s0, e16)]) (Some [(s0, e17)]) ([]) (Some [(s0, v0)]))
  ; (193, V (Some [(s0, e0)]) (Some [(s0, e18)]) (Some [(s0, e17)]) ([]) (Some [(s0, v0)]))
  ; (194, V (Some [(s0, e1)]) (Some [(s0, e16)]) (Some [(s0, e17)]) ([]) (Some [(s0, v0)]))
  ; (195, V (Some [(s0, e1)]) (Some [(s0, e18)]) (Some [(s0, e19)]) ([]) (Some [(s0, v0)]))
  ; (196, V (Some [(s5, e2)]) (Some [(s5, e20)]) (None) ([(s5, v4)]) (None))
  ; (197, V (Some [(s5, e2)]) (Some [(s5, e20)]) (None) ([(s5, v5)]) (None))
  ; (198, V (Some [(s5, e2)]) (Some [(s5, e20)]) (None) ([]) (None))
  ; (199, V (Some [(s8, e4)]) (Some [(s8, e21)]) (Some [(s8, e22)]) ([(s8, v8)]) (Some [(s8, v6)]))
  ; (200, V (Some [(s8, e4)]) (Some [(s8, e23)]) (Some [(s8, e22)]) ([(s8, v8)]) (Some [(s8, v6)]))
  ; (201, V (Some [(s8, e7)]) (Some [(s8, e21)]) (Some [(s8, e22)]) ([(s8, v8)]) (Some [(s8, v6)]))
  ; (202, V (Some [(s8, e7)]) (Some [(s8, e23)]) (Some [(s8, e24)]) ([(s8, v8)]) (Some [(s8, v6)]))
  ; (203, V (Some [(s8, e4)]) (Some [(s8, e21)]) (Some [(s8, e22)]) ([(s8, v10)]) (Some [(s8, v6)]))
  ; (204, V (Some [(s8, e4)]) (Some [(s8, e23)]) (Some [(s8, e22)]) ([(s8, v10)]) (Some [(s8, v6)]))
  ; (205, V (Some [(s8, e7)]) (Some [(s8, e21)]) (Some [(s8, e22)]) ([(s8, v10)]) (Some [(s8, v6)]))
  ; (206, V (Some [(s8, e7)]) (Some [(s8, e23)]) (Some [(s8, e24)]) ([(s8, v10)]) (Some [(s8, v6)]))
  ; (207, V (Some [(s8, e4)]) (Some [(s8, e21)]) (Some [(s8, e22)]) ([(s8, v12)]) (Some [(s8, v6)]))
  ; (208, V (Some [(s8, e4)]) (Some [(s8, e23)]) (Some [(s8, e22)]) ([(s8, v12)]) (Some [(s8, v6)]))
  ; (209, V (Some [(s8, e7)]) (Some [(s8, e21)]) (Some [(s8, e22)]) ([(s8, v12)]) (Some [(s8, v6)]))
  ; (210, V (Some [(s8, e7)]) (Some [(s8, e23)]) (Some [(s8, e24)]) ([(s8, v12)]) (Some [(s8, v6)]))
  ; (211, V (Some [(s8, e4)]) (Some [(s8, e21)]) (Some [(s8, e22)]) ([(s8, v13)]) (Some [(s8, v6)]))
  ; (212, V (Some [(s8, e4)]) (Some [(s8, e23)]) (Some [(s8, e22)]) ([(s8, v13)]) (Some [(s8, v6)]))
  ; (213, V (Some [(s8, e7)]) (Some [(s8, e21)]) (Some [(s8, e22)]) ([(s8, v13)]) (Some [(s8, v6)]))
  ; (214, V (Some [(s8, e7)]) (Some [(s8, e23)]) (Some [(s8, e24)]) ([(s8, v13)]) (Some [(s8, v6)]))
  ; (215, V (Some [(s8, e4)]) (Some [(s8, e21)]) (Some [(s8, e22)]) ([(s8, v6)]) (Some [(s8, v6)]))
  ; (216, V (Some [(s8, e4)]) (Some [(s8, e23)]) (Some [(s8, e22)]) ([(s8, v6)]) (Some [(s8, v6)])) ].
Definition vectors1 : list (nat * vector) :=
  [ (217, V (Some [(s8, e7)]) (Some [(s8, e21)]) (Some [(s8, e22)]) ([(s8, v6)]) (Some [(s8, v6)]))
  ; (218, V (Some [(s8, e7)]) (Some [(s8, e23)]) (Some [(s8, e24)]) ([(s8, v6)]) (Some [(s8, v6)]))
  ; (219, V (Some [(s8, e4)]) (Some [(s8, e21)]) (Some [(s8, e22)]) ([]) (Some [(s8, v6)]))
  ; (220, V (Some [(s8, e4)]) (Some [(s8, e23)]) (Some [(s8, e22)]) ([]) (Some [(s8, v6)]))
  ; (221, V (Some [(s8, e7)]) (Some [(s8, e21)]) (Some [(s8, e22)]) ([]) (Some [(s8, v6)]))
  ; (222, V (Some [(s8, e7)]) (Some [(s8, e23)]) (Some [(s8, e24)]) ([]) (Some [(s8, v6)]))
  ; (223, V (Some [(s8, e4)]) (Some [(s8, e25)]) (Some [(s8, e26)]) ([(s8, v8)]) (Some [(s8, v6)]))
  ; (224, V (Some [(s8, e4)]) (Some [(s8, e27)]) (Some [(s8, e26)]) ([(s8, v8)]) (Some [(s8, v6)]))
  ; (225, V (Some [(s8, e7)]) (Some [(s8, e25)]) (Some [(s8, e26)]) ([(s8, v8)]) (Some [(s8, v6)]))
  ; (226, V (Some [(s8, e7)]) (Some [(s8, e27)]) (Some [(s8, e28)]) ([(s8, v8)]) (Some [(s8, v6)]))
  ; (227, V (Some [(s8, e4)]) (Some [(s8, e25)]) (Some [(s8, e26)]) ([(s8, v10)]) (Some [(s8, v6)]))
  ; (228, V (Some [(s8, e4)]) (Some [(s8, e27)]) (Some [(s8, e26)]) ([(s8, v10)]) (Some [(s8, v6)]))
  ; (229, V (Some [(s8, e7)]) (Some [(s8, e25)]) (Some [(s8, e26)]) ([(s8, v10)]) (Some [(s8, v6)]))
  ; (230, V (Some [(s8, e7)]) (Some [(s8, e27)]) (Some [(s8, e28)]) ([(s8, v10)]) (Some [(s8, v6)]))
  ; (231, V (Some [(s8, e4)]) (Some [(s8, e25)]) (Some [(s8, e26)]) ([(s8, v12)]) (Some [(s8, v6)]))
  ; (232, V (Some [(s8, e4)]) (Some [(s8, e27)]) (Some [(s8, e26)]) ([(s8, v12)]) (Some [(s8, v6)]))
  ; (233, V (Some [(s8, e7)]) (Some [(s8, e25)]) (Some [(s8, e26)]) ([(s8, v12)]) (Some [(s8, v6)]))
  ; (234, V (Some [(s8, e7)]) (Some [(s8, e27)]) (Some [(s8, e28)]) ([(s8, v12)]) (Some [(s8, v6)]))
  ; (235, V (Some [(s8, e4)]) (Some [(s8, e25)]) (Some [(s8, e26)]) ([(s8, v13)]) (Some [(s8, v6)]))
  ; (236, V (Some [(s8, e4)]) (Some [(s8, e27)]) (Some [(s8, e26)]) ([(s8, v13)]) (Some [(s8, v6)]))
  ; (237, V (Some [(s8, e7)]) (Some [(s8, e25)]) (Some [(s8, e26)]) ([(s8, v13)]) (Some [(s8, v6)]))
  ; (238, V (Some [(s8, e7)]) (Some [(s8, e27)]) (Some [(s8, e28)]) ([(s8, v13)]) (Some [(s8, v6)]))
  ; (239, V (Some [(s8, e4)]) (Some [(s8, e25)]) (Some [(s8, e26)]) ([(s8, v6)]) (Some [(s8, v6)]))
  ; (240, V (Some [(s8, e4)]) (Some [(s8, e27)]) (Some [(s8, e26)]) ([(s8, v6)]) (Some [(s8, v6)]))
  ; (241, V (Some [(s8, e7)]) (Some [(s8, e25)]) (Some [(s8, e26)]) ([(s8, v6)]) (Some [(s8, v6)]))
  ; (242, V (Some [(s8, e7)]) (Some [(s8, e27)]) (Some [(s8, e28)]) ([(s8, v6)]) (Some [(s8, v6)]))
  ; (243, V (Some [(s8, e4)]) (Some [(s8, e25)]) (Some [(s8, e26)]) ([]) (Some [(s8, v6)]))
  ; (244, V (Some [(s8, e4)]) (Some [(s8, e27)]) (Some [(s8, e26)]) ([]) (Some [(s8, v6)]))
  ; (245, V (Some [(s8, e7)]) (Some [(s8, e25)]) (Some [(s8, e26)]) ([]) (Some [(s8, v6)]))
  ; (246, V (Some [(s8, e7)]) (Some [(s8, e27)]) (Some [(s8, e28)]) ([]) (Some [(s8, v6)]))
  ; (247, V (Some [(s8, e5)]) (Some [(s8, e25)]) (Some [(s8, e29)]) ([(s8, v8)]) (Some [(s8, v8)]))
  ; (248, V (Some [(s8, e5)]) (Some [(s8, e27)]) (Some [(s8, e29)]) ([(s8, v8)]) (Some [(s8, v8)]))
  ; (249, V (Some [(s8, e6)]) (Some [(s8, e25)]) (Some [(s8, e29)]) ([(s8, v8)]) (Some [(s8, v8)]))
  ; (250, V (Some [(s8, e6)]) (Some [(s8, e27)]) (Some [(s8, e30)]) ([(s8, v8)]) (Some [(s8, v8)]))
  ; (251, V (Some [(s8, e5)]) (Some [(s8, e25)]) (Some [(s8, e29)]) ([(s8, v10)]) (Some [(s8, v8)]))
  ; (252, V (Some [(s8, e5)]) (Some [(s8, e27)]) (Some [(s8, e29)]) ([(s8, v10)]) (Some [(s8, v8)]))
  ; (253, V (Some [(s8, e6)]) (Some [(s8, e25)]) (Some [(s8, e29)]) ([(s8, v10)]) (Some [(s8, v8)]))
  ; (254, V (Some [(s8, e6)]) (Some [(s8, e27)]) (Some [(s8, e30)]) ([(s8, v10)]) (Some [(s8, v8)]))
  ; (255, V (Some [(s8, e5)]) (Some [(s8, e25)]) (Some [(s8, e29)]) ([(s8, v12)]) (Some [(s8, v8)]))
  ; (256, V (Some [(s8, e5)]) (Some [(s8, e27)]) (Some [(s8, e29)]) ([(s8, v12)]) (Some [(s8, v8)]))
  ; (257, V (Some [(s8, e6)]) (Some [(s8, e25)]) (Some [(s8, e29)]) ([(s8, v12)]) (Some [(s8, v8)]))
  ; (258, V (Some [(s8, e6)]) (Some [(s8, e27)]) (Some [(s8, e30)]) ([(s8, v12)]) (Some [(s8, v8)]))
  ; (259, V (Some [(s8, e5)]) (Some [(s8, e25)]) (Some [(s8, e29)]) ([(s8, v13)]) (Some [(s8, v8)]))
  ; (260, V (Some [(s8, e5)]) (Some [(s8, e27)]) (Some [(s8, e29)]) ([(s8, v13)]) (Some [(s8, v8)]))
  ; (261, V (Some [(s8, e6)]) (Some [(s8, e25)]) (Some [(s8, e29)]) ([(s8, v13)]) (Some [(s8, v8)]))
  ; (262, V (Some [(s8, e6)]) (Some [(s8, e27)]) (Some [(s8, e30)]) ([(s8, v13)]) (Some [(s8, v8)]))
  ; (263, V (Some [(s8, e5)]) (Some [(s8, e25)]) (Some [(s8, e29)]) ([(s8, v6)]) (Some [(s8, v8)]))
  ; (264, V (Some [(s8, e5)]) (Some [(s8, e27)]) (Some [(s8, e29)]) ([(s8, v6)]) (Some [(s8, v8)]))
  ; (265, V (Some [(s8, e6)]) (Some [(s8, e25)]) (Some [(s8, e29)]) ([(s8, v6)]) (Some [(s8, v8)]))
  ; (266, V (Some [(s8, e6)]) (Some [(s8, e27)]) (Some [(s8, e30)]) ([(s8, v6)]) (Some [(s8, v8)]))
  ; (267, V (Some [(s8, e5)]) (Some [(s8, e25)]) (Some [(s8, e29)]) ([]) (Some [(s8, v8)]))
  ; (268, V (Some [(s8, e5)]) (Some [(s8, e27)]) (Some [(s8, e29)]) ([]) (Some [(s8, v8)]))
  ; (269, V (Some [(s8, e6)]) (Some [(s8, e25)]) (Some [(s8, e29)]) ([]) (Some [(s8, v8)]))
  ; (270, V (Some [(s8, e6)]) (Some [(s8, e27)]) (Some [(s8, e30)]) ([]) (Some [(s8, v8)]))
  ; (295, V (Some [(s0, e0)]) (Some [(s0, e31)]) (Some [(s0, e32)]) ([(s0, v0)]) (Some [(s0, v0)]))
  ; (296, V (Some [(s0, e0)]) (Some [(s0, e33)]) (Some [(s0, e32)]) ([(s0, v0)]) (Some [(s0, v0)]))
  ; (297, V (Some [(s0, e1)]) (Some [(s0, e31)]) (Some [(s0, e32)]) ([(s0, v0)]) (Some [(s0, v0)]))
  ; (298, V (Some [(s0, e1)]) (Some [(s0, e33)]) (Some [(s0, e34)]) ([(s0, v0)]) (Some [(s0, v0)]))
  ; (299, V (Some [(s0, e0)]) (Some [(s0, e31)]) (Some [(s0, e32)]) ([(s0, v2)]) (Some [(s0, v0)]))
  ; (300, V (Some [(s0, e0)]) (Some [(s0, e33)]) (Some [(s0, e32)]) ([(s0, v2)]) (Some [(s0, v0)]))
  ; (301, V (Some [(s0, e1)]) (Some [(s0, e31)]) (Some [(s0, e32)]) ([(s0, v2)]) (Some [(s0, v0)]))
  ; (302, V (Some [(s0, e1)]) (Some [(s0, e33)]) (Some [(s0, e34)]) ([(s0, v2)]) (Some [(s0, v0)]))
  ; (303, V (Some [(s0, e0)]) (Some [(s0, e31)]) (Some [(s0, e32)]) ([]) (Some [(s0, v0)]))
  ; (304, V (Some [(s0, e0)]) (Some [(s0, e33)]) (Some [(s0, e32)]) ([]) (Some [(s0, v0)]))
  ; (305, V (Some [(s0, e1)]) (Some [(s0, e31)]) (Some [(s0, e32)]) ([]) (Some [(s0, v0)]))
  ; (306, V (Some [(s0, e1)]) (Some [(s0, e33)]) (Some [(s0, e34)]) ([]) (Some [(s0, v0)]))
  ; (307, V (Some [(s5, e2)]) (Some [(s5, e35)]) (None) ([(s5, v4)]) (None))
  ; (308, V (Some [(s5, e2)]) (Some [(s5, e35)]) (None) ([(s5, v5)]) (None))
  ; (309, V (Some [(s5, e2)]) (Some [(s5, e35)]) (None) ([]) (None))
  ; (310, V (Some [(s8, e4)]) (Some [(s8, e36)]) (Some [(s8, e37)]) ([(s8, v8)]) (Some [(s8, v6)]))
  ; (311, V (Some [(s8, e4)]) (Some [(s8, e38)]) (Some [(s8, e37)]) ([(s8, v8)]) (Some [(s8, v6)]))
  ; (312, V (Some [(s8, e7)]) (Some [(s8, e36)]) (Some [(s8, e37)]) ([(s8, v8)]) (Some [(s8, v6)]))
  ; (313, V (Some [(s8, e7)]) (Some [(s8, e38)]) (Some [(s8, e39)]) ([(s8, v8)]) (Some [(s8, v6)]))
  ; (314, V (Some [(s8, e4)]) (Some [(s8, e36)]) (Some [(s8, e37)]) ([(s8, v10)]) (Some [(s8, v6)]))
  ; (315, V (Some [(s8, e4)]) (Some [(s8, e38)]) (Some [(s8, e37)]) ([(s8, v10)]) (Some [(s8, v6)]))
  ; (316, V (Some [(s8, e7)]) (Some [(s8, e36)]) (Some [(s8, e37)]) ([(s8, v10)]) (Some [(s8, v6)]))
  ; (317, V (Some [(s8, e7)]) (Some [(s8, e38)]) (Some [(s8, e39)]) ([(s8, v10)]) (Some [(s8, v6)]))
  ; (318, V (Some [(s8, e4)]) (Some [(s8, e36)]) (Some [(s8, e37)]) ([(s8, v12)]) (Some [(s8, v6)]))
  ; (319, V (Some [(s8, e4)]) (Some [(s8, e38)]) (Some [(s8, e37)]) ([(s8, v12)]) (Some [(s8, v6)]))
  ; (320, V (Some [(s8, e7)]) (Some [(s8, e36)]) (Some [(s8, e37)]) ([(s8, v12)]) (Some [(s8, v6)]))
  ; (321, V (Some [(s8, e7)]) (Some [(s8, e38)]) (Some [(s8, e39)]) ([(s8, v12)]) (Some [(s8, v6)]))
  ; (322, V (Some [(s8, e4)]) (Some [(s8, e36)]) (Some [(s8, e37)]) ([(s8, v13)]) (Some [(s8, v6)]))
  ; (323, V (Some [(s8, e4)]) (Some [(s8, e38)]) (Some [(s8, e37)]) ([(s8, v13)]) (Some [(s8, v6)]))
  ; (324, V (Some [(s8, e7)]) (Some [(s8, e36)]) (Some [(s8, e37)]) ([(s8, v13)]) (Some [(s8, v6)]))
  ; (325, V (Some [(s8, e7)]) (Some [(s8, e38)]) (Some [(s8, e39)]) ([(s8, v13)]) (Some [(s8, v6)]))
  ; (326, V (Some [(s8, e4)]) (Some [(s8, e36)]) (Some [(s8, e37)]) ([(s8, v6)]) (Some [(s8, v6)]))
  ; (327, V (Some [(s8, e4)]) (Some [(s8, e38)]) (Some [(s8, e37)]) ([(s8, v6)]) (Some [(s8, v6)]))
  ; (328, V (Some [(s8, e7)]) (Some [(s8, e36)]) (Some [(s8, e37)]) ([(s8, v6)]) (Some [(s8, v6)]))
  ; (329, V (Some [(s8, e7)]) (Some [(s8, e38)]) (Some [(s8, e39)]) ([(s8, v6)]) (Some [(s8, v6)]))
  ; (330, V (Some [(s8, e4)]) (Some [(s8, e36)]) (Some [(s8, e37)]) ([]) (Some [(s8, v6)]))
  ; (331, V (Some [(s8, e4)]) (Some [(s8, e38)]) (Some [(s8, e37)]) ([]) (Some [(s8, v6)]))
  ; (332, V (Some [(s8, e7)]) (Some [(s8, e36)]) (Some [(s8, e37)]) ([]) (Some [(s8, v6)]))
  ; (333, V (Some [(s8, e7)]) (Some [(s8, e38)]) (Some [(s8, e39)]) ([]) (Some [(s8, v6)]))
  ; (334, V (Some [(s8, e4)]) (Some [(s8, e40)]) (Some [(s8, e41)]) ([(s8, v8)]) (Some [(s8, v6)]))
  ; (335, V (Some [(s8, e4)]) (Some [(s8, e42)]) (Some [(s8, e41)]) ([(s8, v8)]) (Some [(s8, v6)]))
  ; (336, V (Some [(s8, e7)]) (Some [(s8, e40)]) (Some [(s8, e41)]) ([(s8, v8)]) (Some [(s8, v6)]))
  ; (337, V (Some [(s8, e7)]) (Some [(s8, e42)]) (Some [(s8, e43)]) ([(s8, v8)]) (Some [(s8, v6)]))
  ; (338, V (Some [(s8, e4)]) (Some [(s8, e40)]) (Some [(s8, e41)]) ([(s8, v10)]) (Some [(s8, v6)]))
  ; (339, V (Some [(s8, e4)]) (Some [(s8, e42)]) (Some [(s8, e41)]) ([(s8, v10)]) (Some [(s8, v6)]))
  ; (340, V (Some [(s8, e7)]) (Some [(s8, e40)]) (Some [(s8, e41)]) ([(s8, v10)]) (Some [(s8, v6)]))
  ; (341, V (Some [(s8, e7)]) (Some [(s8, e42)]) (Some [(s8, e43)]) ([(s8, v10)]) (Some [(s8, v6)]))
  ; (342, V (Some [(s8, e4)]) (Some [(s8, e40)]) (Some [(s8, e41)]) ([(s8, v12)]) (Some [(s8, v6)]))
  ; (343, V (Some [(s8, e4)]) (Some [(s8, e42)]) (Some [(s8, e41)]) ([(s8, v12)]) (Some [(s8, v6)]))
  ; (344, V (Some [(s8, e7)]) (Some [(s8, e40)]) (Some [(s8, e41)]) ([(s8, v12)]) (Some [(s8, v6)]))
  ; (345, V (Some [(s8, e7)]) (Some [(s8, e42)]) (Some [(s8, e43)]) ([(s8, v12)]) (Some [(s8, v6)]))
  ; (346, V (Some [(s8, e4)]) (Some [(s8, e40)]) (Some [(s8, e41)]) ([(s8, v13)]) (Some [(s8, v6)]))
  ; (347, V (Some [(s8, e4)]) (Some [(s8, e42)]) (Some [(s8, e41)]) ([(s8, v13)]) (Some [(s8, v6)]))
  ; (348, V (Some [(s8, e7)]) (Some [(s8, e40)]) (Some [(s8, e41)]) ([(s8, v13)]) (Some [(s8, v6)]))
  ; (349, V (Some [(s8, e7)]) (Some [(s8, e42)]) (Some [(s8, e43)]) ([(s8, v13)]) (Some [(s8, v6)]))
  ; (350, V (Some [(s8, e4)]) (Some [(s8, e40)]) (Some [(s8, e41)]) ([(s8, v6)]) (Some [(s8, v6)]))
  ; (351, V (Some [(s8, e4)]) (Some [(s8, e42)]) (Some [(s8, e41)]) ([(s8, v6)]) (Some [(s8, v6)]))
  ; (352, V (Some [(s8, e7)]) (Some [(s8, e40)]) (Some [(s8, e41)]) ([(s8, v6)]) (Some [(s8, v6)]))
  ; (353, V (Some [(s8, e7)]) (Some [(s8, e42)]) (Some [(s8, e43)]) ([(s8, v6)]) (Some [(s8, v6)]))
  ; (354, V (Some [(s8, e4)]) (Some [(s8, e40)]) (Some [(s8, e41)]) ([]) (Some [(s8, v6)]))
  ; (355, V (Some [(s8, e4)]) (Some [(s8, e42)]) (Some [(s8, e41)]) ([]) (Some [(s8, v6)]))
  ; (356, V (Some [(s8, e7)]) (Some [(s8, e40)]) (Some [(s8, e41)]) ([]) (Some [(s8, v6)]))
  ; (357, V (Some [(s8, e7)]) (Some [(s8, e42)]) (Some [(s8, e43)]) ([]) (Some [(s8, v6)]))
  ; (358, V (Some [(s8, e5)]) (Some [(s8, e40)]) (Some [(s8, e44)]) ([(s8, v8)]) (Some [(s8, v8)]))
  ; (359, V (Some [(s8, e5)]) (Some [(s8, e42)]) (Some [(s8, e44)]) ([(s8, v8)]) (Some [(s8, v8)]))
  ; (360, V (Some [(s8, e6)]) (Some [(s8, e40)]) (Some [(s8, e44)]) ([(s8, v8)]) (Some [(s8, v8)]))
  ; (361, V (Some [(s8, e6)]) (Some [(s8, e42)]) (Some [(s8, e45)]) ([(s8, v8)]) (Some [(s8, v8)]))
  ; (362, V (Some [(s8, e5)]) (Some [(s8, e40)]) (Some [(s8, e44)]) ([(s8, v10)]) (Some [(s8, v8)]))
  ; (363, V (Some [(s8, e5)]) (Some [(s8, e42)]) (Some [(s8, e44)]) ([(s8, v10)]) (Some [(s8, v8)]))
  ; (364, V (Some [(s8, e6)]) (Some [(s8, e40)]) (Some [(s8, e44)]) ([(s8, v10)]) (Some [(s8, v8)]))
  ; (365, V (Some [(s8, e6)]) (Some [(s8, e42)]) (Some [(s8, e45)]) ([(s8, v10)]) (Some [(s8, v8)]))
  ; (366, V (Some [(s8, e5)]) (Some [(s8, e40)]) (Some [(s8, e44)]) ([(s8, v12)]) (Some [(s8, v8)]))
  ; (367, V (Some [(s8, e5)]) (Some [(s8, e42)]) (Some [(s8, e44)]) ([(s8, v12)]) (Some [(s8, v8)]))
  ; (368, V (Some [(s8, e6)]) (Some [(s8, e40)]) (Some [(s8, e44)]) ([(s8, v12)]) (Some [(s8, v8)]))
  ; (369, V (Some [(s8, e6)]) (Some [(s8, e42)]) (Some [(s8, e45)]) ([(s8, v12)]) (Some [(s8, v8)]))
  ; (370, V (Some [(s8, e5)]) (Some [(s8, e40)]) (Some [(s8, e44)]) ([(s8, v13)]) (Some [(s8, v8)]))
  ; (371, V (Some [(s8, e5)]) (Some [(s8, e42)]) (Some [(s8, e44)]) ([(s8, v13)]) (Some [(s8, v8)]))
  ; (372, V (Some [(s8, e6)]) (Some [(s8, e40)]) (Some [(s8, e44)]) ([(s8, v13)]) (Some [(s8, v8)]))
  ; (373, V (Some [(s8, e6)]) (Some [(s8, e42)]) (Some [(s8, e45)]) ([(s8, v13)]) (Some [(s8, v8)]))
  ; (374, V (Some [(s8, e5)]) (Some [(s8, e40)]) (Some [(s8, e44)]) ([(s8, v6)]) (Some [(s8, v8)]))
  ; (375, V (Some [(s8, e5)]) (Some [(s8, e42)]) (Some [(s8, e44)]) ([(s8, v6)]) (Some [(s8, v8)]))
  ; (376, V (Some [(s8, e6)]) (Some [(s8, e40)]) (Some [(s8, e44)]) ([(s8, v6)]) (Some [(s8, v8)]))
  ; (377, V (Some [(s8, e6)]) (Some [(s8, e42)]) (Some [(s8, e45)]) ([(s8, v6)]) (Some [(s8, v8)]))
  ; (378, V (Some [(s8, e5)]) (Some [(s8, e40)]) (Some [(s8, e44)]) ([]) (Some [(s8, v8)]))
  ; (379, V (Some [(s8, e5)]) (Some [(s8, e42)]) (Some [(s8, e44)]) ([]) (Some [(s8, v8)]))
  ; (380, V (Some [(s8, e6)]) (Some [(s8, e40)]) (Some [(s8, e44)]) ([]) (Some [(s8, v8)]))
  ; (381, V (Some [(s8, e6)]) (Some [(s8, e42)]) (Some [(s8, e45)]) ([]) (Some [(s8, v8)]))
  ; (382, V (Some [(s8, e4)]) (Some [(s8, e46)]) (None) ([(s8, v8)]) (None))
  ; (383, V (Some [(s8, e4)]) (Some [(s8, e47)]) (None) ([(s8, v8)]) (None))
  ; (384, V (Some [(s8, e7)]) (Some [(s8, e46)]) (None) ([(s8, v8)]) (None))
  ; (385, V (Some [(s8, e7)]) (Some [(s8, e47)]) (None) ([(s8, v8)]) (None))
  ; (386, V (Some [(s8, e4)]) (Some [(s8, e46)]) (None) ([(s8, v10)]) (None))
  ; (387, V (Some [(s8, e4)]) (Some [(s8, e47)]) (None) ([(s8, v10)]) (None))
  ; (388, V (Some [(s8, e7)]) (Some [(s8, e46)]) (None) ([(s8, v10)]) (None))
  ; (389, V (Some [(s8, e7)]) (Some [(s8, e47)]) (None) ([(s8, v10)]) (None))
  ; (390, V (Some [(s8, e4)]) (Some [(s8, e46)]) (None) ([(s8, v12)]) (None))
  ; (391, V (Some [(s8, e4)]) (Some [(s8, e47)]) (None) ([(s8, v12)]) (None))
  ; (392, V (Some [(s8, e7)]) (Some [(s8, e46)]) (None) ([(s8, v12)]) (None))
  ; (393, V (Some [(s8, e7)]) (Some [(s8, e47)]) (None) ([(s8, v12)]) (None))
  ; (394, V (Some [(s8, e4)]) (Some [(s8, e46)]) (None) ([(s8, v13)]) (None))
  ; (395, V (Some [(s8, e4)]) (Some [(s8, e47)]) (None) ([(s8, v13)]) (None))
  ; (396, V (Some [(s8, e7)]) (Some [(s8, e46)]) (None) ([(s8, v13)]) (None))
  ; (397, V (Some [(s8, e7)]) (Some [(s8, e47)]) (None) ([(s8, v13)]) (None))
  ; (398, V (Some [(s8, e4)]) (Some [(s8, e46)]) (None) ([(s8, v6)]) (None))
  ; (399, V (Some [(s8, e4)]) (Some [(s8, e47)]) (None) ([(s8, v6)]) (None))
  ; (400, V (Some [(s8, e7)]) (Some [(s8, e46)]) (None) ([(s8, v6)]) (None))
  ; (401, V (Some [(s8, e7)]) (Some [(s8, e47)]) (None) ([(s8, v6)]) (None))
  ; (402, V (Some [(s8, e4)]) (Some [(s8, e46)]) (None) ([]) (None))
  ; (403, V (Some [(s8, e4)]) (Some [(s8, e47)]) (None) ([]) (None))
  ; (404, V (Some [(s8, e7)]) (Some [(s8, e46)]) (None) ([]) (None))
  ; (405, V (Some [(s8, e7)]) (Some [(s8, e47)]) (None) ([]) (None))
  ; (406, V (Some [(s8, e4)]) (Some [(s8, e48)]) (None) ([(s8, v8)]) (None))
  ; (407, V (Some [(s8, e4)]) (Some [(s8, e49)]) (None) ([(s8, v8)]) (None))
  ; (408, V (Some [(s8, e7)]) (Some [(s8, e48)]) (None) ([(s8, v8)]) (None))
  ; (409, V (Some [(s8, e7)]) (Some [(s8, e49)]) (None) ([(s8, v8)]) (None))
  ; (410, V (Some [(s8, e4)]) (Some [(s8, e48)]) (None) ([(s8, v10)]) (None))
  ; (411, V (Some [(s8, e4)]) (Some [(s8, e49)]) (None) ([(s8, v10)]) (None))
  ; (412, V (Some [(s8, e7)]) (Some [(s8, e48)]) (None) ([(s8, v10)]) (None))
  ; (413, V (Some [(s8, e7)]) (Some [(s8, e49)]) (None) ([(s8, v10)]) (None))
  ; (414, V (Some [(s8, e4)]) (Some [(s8, e48)]) (None) ([(s8, v12)]) (None))
  ; (415, V (Some [(s8, e4)]) (Some [(s8, e49)]) (None) ([(s8, v12)]) (None))
  ; (416, V (Some [(s8, e7)]) (Some [(s8, e48)]) (None) ([(s8, v12)]) (None))
  ; (417, V (Some [(s8, e7)]) (Some [(s8, e49)]) (None) ([(s8, v12)]) (None))
  ; (418, V (Some [(s8, e4)]) (Some [(s8, e48)]) (None) ([(s8, v13)]) (None))
  ; (419, V (Some [(s8, e4)]) (Some [(s8, e49)]) (None) ([(s8, v13)]) (None))
  ; (420, V (Some [(s8, e7)]) (Some [(s8, e48)]) (None) ([(s8, v13)]) (None))
  ; (421, V (Some [(s8, e7)]) (Some [(s8, e49)]) (None) ([(s8, v13)]) (None))
  ; (422, V (Some [(s8, e4)]) (Some [(s8, e48)]) (None) ([(s8, v6)]) (None))
  ; (423, V (Some [(s8, e4)]) (Some [(s8, e49)]) (None) ([(s8, v6)]) (None))
  ; (424, V (Some [(s8, e7)]) (Some [(s8, e48)]) (None) ([(s8, v6)]) (None))
  ; (425, V (Some [(s8, e7)]) (Some [(s8, e49)]) (None) ([(s8, v6)]) (None))
  ; (426, V (Some [(s8, e4)]) (Some [(s8, e48)]) (None) ([]) (None))
  ; (427, V (Some [(s8, e4)]) (Some [(s8, e49)]) (None) ([]) (None))
  ; (428, V (Some [(s8, e7)]) (Some [(s8, e48)]) (None) ([]) (None))
  ; (429, V (Some [(s8, e7)]) (Some [(s8, e49)]) (None) ([]) (None))
  ; (430, V (Some [(s8, e5)]) (Some [(s8, e48)]) (None) ([(s8, v8)]) (None))
  ; (431, V (Some [(s8, e5)]) (Some [(s8, e49)]) (None) ([(s8, v8)]) (None))
  ; (432, V (Some [(s8, e6)]) (Some [(s8, e48)]) (None) ([(s8, v8)]) (None))
  ; (433, V (Some [(s8, e6)]) (Some [(s8, e49)]) (None) ([(s8, v8)]) (None))
  ; (434, V (Some [(s8, e5)]) (Some [(s8, e48)]) (None) ([(s8, v10)]) (None))
  ; (435, V (Some [(s8, e5)]) (Some [(s8, e49)]) (None) ([(s8, v10)]) (None))
  ; (436, V (Some [(s8, e6)]) (Some [(s8, e48)]) (None) ([(s8, v10)]) (None))
  ; (437, V (Some [(s8, e6)]) (Some [(s8, e49)]) (None) ([(s8, v10)]) (None))
  ; (438, V (Some [(s8, e5)]) (Some [(s8, e48)]) (None) ([(s8, v12)]) (None))
  ; (439, V (Some [(s8, e5)]) (Some [(s8, e49)]) (None) ([(s8, v12)]) (None))
  ; (440, V (Some [(s8, e6)]) (Some [(s8, e48)]) (None) ([(s8, v12)]) (None)) ].
Definition vectors2 : list (nat * vector) :=
  [ (441, V (Some [(s8, e6)]) (Some [(s8, e49)]) (None) ([(s8, v12)]) (None))
  ; (442, V (Some [(s8, e5)]) (Some [(s8, e48)]) (None) ([(s8, v13)]) (None))
  ; (443, V (Some [(s8, e5)]) (Some [(s8, e49)]) (None) ([(s8, v13)]) (None))
  ; (444, V (Some [(s8, e6)]) (Some [(s8, e48)]) (None) ([(s8, v13)]) (None))
  ; (445, V (Some [(s8, e6)]) (Some [(s8, e49)]) (None) ([(s8, v13)]) (None))
  ; (446, V (Some [(s8, e5)]) (Some [(s8, e48)]) (None) ([(s8, v6)]) (None))
  ; (447, V (Some [(s8, e5)]) (Some [(s8, e49)]) (None) ([(s8, v6)]) (None))
  ; (448, V (Some [(s8, e6)]) (Some [(s8, e48)]) (None) ([(s8, v6)]) (None))
  ; (449, V (Some [(s8, e6)]) (Some [(s8, e49)]) (None) ([(s8, v6)]) (None))
  ; (450, V (Some [(s8, e5)]) (Some [(s8, e48)]) (None) ([]) (None))
  ; (451, V (Some [(s8, e5)]) (Some [(s8, e49)]) (None) ([]) (None))
  ; (452, V (Some [(s8, e6)]) (Some [(s8, e48)]) (None) ([]) (None))
  ; (453, V (Some [(s8, e6)]) (Some [(s8, e49)]) (None) ([]) (None))
  ; (454, V (Some [(s8, e50)]) (Some [(s8, e5)]) (Some [(s8, e51)]) ([(s8, v8)]) (Some [(s8, v8)]))
  ; (455, V (Some [(s8, e50)]) (Some [(s8, e6)]) (Some [(s8, e51)]) ([(s8, v8)]) (Some [(s8, v8)]))
  ; (456, V (Some [(s8, e52)]) (Some [(s8, e5)]) (Some [(s8, e51)]) ([(s8, v8)]) (Some [(s8, v8)]))
  ; (457, V (Some [(s8, e52)]) (Some [(s8, e6)]) (Some [(s8, e53)]) ([(s8, v8)]) (Some [(s8, v8)]))
  ; (458, V (Some [(s8, e50)]) (Some [(s8, e5)]) (Some [(s8, e51)]) ([(s8, v10)]) (Some [(s8, v8)]))
  ; (459, V (Some [(s8, e50)]) (Some [(s8, e6)]) (Some [(s8, e51)]) ([(s8, v10)]) (Some [(s8, v8)]))
  ; (460, V (Some [(s8, e52)]) (Some [(s8, e5)]) (Some [(s8, e51)]) ([(s8, v10)]) (Some [(s8, v8)]))
  ; (461, V (Some [(s8, e52)]) (Some [(s8, e6)]) (Some [(s8, e53)]) ([(s8, v10)]) (Some [(s8, v8)]))
  ; (462, V (Some [(s8, e50)]) (Some [(s8, e5)]) (Some [(s8, e51)]) ([(s8, v12)]) (Some [(s8, v8)]))
  ; (463, V (Some [(s8, e50)]) (Some [(s8, e6)]) (Some [(s8, e51)]) ([(s8, v12)]) (Some [(s8, v8)]))
  ; (464, V (Some [(s8, e52)]) (Some [(s8, e5)]) (Some [(s8, e51)]) ([(s8, v12)]) (Some [(s8, v8)]))
  ; (465, V (Some [(s8, e52)]) (Some [(s8, e6)]) (Some [(s8, e53)]) ([(s8, v12)]) (Some [(s8, v8)]))
  ; (466, V (Some [(s8, e50)]) (Some [(s8, e5)]) (Some [(s8, e51)]) ([(s8, v13)]) (Some [(s8, v8)]))
  ; (467, V (Some [(s8, e50)]) (Some [(s8, e6)]) (Some [(s8, e51)]) ([(s8, v13)]) (Some [(s8, v8)]))
  ; (468, V (Some [(s8, e52)]) (Some [(s8, e5)]) (Some [(s8, e51)]) ([(s8, v13)]) (Some [(s8, v8)]))
  ; (469, V (Some [(s8, e52)]) (Some [(s8, e6)]) (Some [(s8, e53)]) ([(s8, v13)]) (Some [(s8, v8)]))
  ; (470, V (Some [(s8, e50)]) (Some [(s8, e5)]) (Some [(s8, e51)]) ([(s8, v6)]) (Some [(s8, v8)]))
  ; (471, V (Some [(s8, e50)]) (Some [(s8, e6)]) (Some [(s8, e51)]) ([(s8, v6)]) (Some [(s8, v8)]))
  ; (472, V (Some [(s8, e52)]) (Some [(s8, e5)]) (Some [(s8, e51)]) ([(s8, v6)]) (Some [(s8, v8)]))
  ; (473, V (Some [(s8, e52)]) (Some [(s8, e6)]) (Some [(s8, e53)]) ([(s8, v6)]) (Some [(s8, v8)]))
  ; (474, V (Some [(s8, e50)]) (Some [(s8, e5)]) (Some [(s8, e51)]) ([]) (Some [(s8, v8)]))
  ; (475, V (Some [(s8, e50)]) (Some [(s8, e6)]) (Some [(s8, e51)]) ([]) (Some [(s8, v8)]))
  ; (476, V (Some [(s8, e52)]) (Some [(s8, e5)]) (Some [(s8, e51)]) ([]) (Some [(s8, v8)]))
  ; (477, V (Some [(s8, e52)]) (Some [(s8, e6)]) (Some [(s8, e53)]) ([]) (Some [(s8, v8)]))
  ; (478, V (Some [(s8, e50)]) (Some [(s8, e8)]) (Some [(s8, e54)]) ([(s8, v8)]) (Some [(s8, v12)]))
  ; (479, V (Some [(s8, e50)]) (Some [(s8, e9)]) (Some [(s8, e54)]) ([(s8, v8)]) (Some [(s8, v12)]))
  ; (480, V (Some [(s8, e52)]) (Some [(s8, e8)]) (Some [(s8, e54)]) ([(s8, v8)]) (Some [(s8, v12)]))
  ; (481, V (Some [(s8, e52)]) (Some [(s8, e9)]) (Some [(s8, e55)]) ([(s8, v8)]) (Some [(s8, v12)]))
  ; (482, V (Some [(s8, e50)]) (Some [(s8, e8)]) (Some [(s8, e54)]) ([(s8, v10)]) (Some [(s8, v12)]))
  ; (483, V (Some [(s8, e50)]) (Some [(s8, e9)]) (Some [(s8, e54)]) ([(s8, v10)]) (Some [(s8, v12)]))
  ; (484, V (Some [(s8, e52)]) (Some [(s8, e8)]) (Some [(s8, e54)]) ([(s8, v10)]) (Some [(s8, v12)]))
  ; (485, V (Some [(s8, e52)]) (Some [(s8, e9)]) (Some [(s8, e55)]) ([(s8, v10)]) (Some [(s8, v12)]))
  ; (486, V (Some [(s8, e50)]) (Some [(s8, e8)]) (Some [(s8, e54)]) ([(s8, v12)]) (Some [(s8, v12)]))
  ; (487, V (Some [(s8, e50)]) (Some [(s8, e9)]) (Some [(s8, e54)]) ([(s8, v12)]) (Some [(s8, v12)]))
  ; (488, V (Some [(s8, e52)]) (Some [(s8, e8)]) (Some [(s8, e54)]) ([(s8, v12)]) (Some [(s8, v12)]))
  ; (489, V (Some [(s8, e52)]) (Some [(s8, e9)]) (Some [(s8, e55)]) ([(s8, v12)]) (Some [(s8, v12)]))
  ; (490, V (Some [(s8, e50)]) (Some [(s8, e8)]) (Some [(s8, e54)]) ([(s8, v13)]) (Some [(s8, v12)]))
  ; (491, V (Some [(s8, e50)]) (Some [(s8, e9)]) (Some [(s8, e54)]) ([(s8, v13)]) (Some [(s8, v12)]))
  ; (492, V (Some [(s8, e52)]) (Some [(s8, e8)]) (Some [(s8, e54)]) ([(s8, v13)]) (Some [(s8, v12)]))
  ; (493, V (Some [(s8, e52)]) (Some [(s8, e9)]) (Some [(s8, e55)]) ([(s8, v13)]) (Some [(s8, v12)]))
  ; (494, V (Some [(s8, e50)]) (Some [(s8, e8)]) (Some [(s8, e54)]) ([(s8, v6)]) (Some [(s8, v12)]))
  ; (495, V (Some [(s8, e50)]) (Some [(s8, e9)]) (Some [(s8, e54)]) ([(s8, v6)]) (Some [(s8, v12)]))
  ; (496, V (Some [(s8, e52)]) (Some [(s8, e8)]) (Some [(s8, e54)]) ([(s8, v6)]) (Some [(s8, v12)]))
  ; (497, V (Some [(s8, e52)]) (Some [(s8, e9)]) (Some [(s8, e55)]) ([(s8, v6)]) (Some [(s8, v12)]))
  ; (498, V (Some [(s8, e50)]) (Some [(s8, e8)]) (Some [(s8, e54)]) ([]) (Some [(s8, v12)]))
  ; (499, V (Some [(s8, e50)]) (Some [(s8, e9)]) (Some [(s8, e54)]) ([]) (Some [(s8, v12)]))
  ; (500, V (Some [(s8, e52)]) (Some [(s8, e8)]) (Some [(s8, e54)]) ([]) (Some [(s8, v12)]))
  ; (501, V (Some [(s8, e52)]) (Some [(s8, e9)]) (Some [(s8, e55)]) ([]) (Some [(s8, v12)]))
  ; (502, V (Some [(s8, e12)]) (Some [(s8, e8)]) (Some [(s8, e56)]) ([(s8, v8)]) (Some [(s8, v12)]))
  ; (503, V (Some [(s8, e12)]) (Some [(s8, e9)]) (Some [(s8, e56)]) ([(s8, v8)]) (Some [(s8, v12)]))
  ; (504, V (Some [(s8, e13)]) (Some [(s8, e8)]) (Some [(s8, e56)]) ([(s8, v8)]) (Some [(s8, v12)]))
  ; (505, V (Some [(s8, e13)]) (Some [(s8, e9)]) (Some [(s8, e57)]) ([(s8, v8)]) (Some [(s8, v12)]))
  ; (506, V (Some [(s8, e12)]) (Some [(s8, e8)]) (Some [(s8, e56)]) ([(s8, v10)]) (Some [(s8, v12)]))
  ; (507, V (Some [(s8, e12)]) (Some [(s8, e9)]) (Some [(s8, e56)]) ([(s8, v10)]) (Some [(s8, v12)]))
  ; (508, V (Some [(s8, e13)]) (Some [(s8, e8)]) (Some [(s8, e56)]) ([(s8, v10)]) (Some [(s8, v12)]))
  ; (509, V (Some [(s8, e13)]) (Some [(s8, e9)]) (Some [(s8, e57)]) ([(s8, v10)]) (Some [(s8, v12)]))
  ; (510, V (Some [(s8, e12)]) (Some [(s8, e8)]) (Some [(s8, e56)]) ([(s8, v12)]) (Some [(s8, v12)]))
  ; (511, V (Some [(s8, e12)]) (Some [(s8, e9)]) (Some [(s8, e56)]) ([(s8, v12)]) (Some [(s8, v12)]))
  ; (512, V (Some [(s8, e13)]) (Some [(s8, e8)]) (Some [(s8, e56)]) ([(s8, v12)]) (Some [(s8, v12)]))
  ; (513, V (Some [(s8, e13)]) (Some [(s8, e9)]) (Some [(s8, e57)]) ([(s8, v12)]) (Some [(s8, v12)]))
  ; (514, V (Some [(s8, e12)]) (Some [(s8, e8)]) (Some [(s8, e56)]) ([(s8, v13)]) (Some [(s8, v12)]))
  ; (515, V (Some [(s8, e12)]) (Some [(s8, e9)]) (Some [(s8, e56)]) ([(s8, v13)]) (Some [(s8, v12)]))
  ; (516, V (Some [(s8, e13)]) (Some [(s8, e8)]) (Some [(s8, e56)]) ([(s8, v13)]) (Some [(s8, v12)]))
  ; (517, V (Some [(s8, e13)]) (Some [(s8, e9)]) (Some [(s8, e57)]) ([(s8, v13)]) (Some [(s8, v12)]))
  ; (518, V (Some [(s8, e12)]) (Some [(s8, e8)]) (Some [(s8, e56)]) ([(s8, v6)]) (Some [(s8, v12)]))
  ; (519, V (Some [(s8, e12)]) (Some [(s8, e9)]) (Some [(s8, e56)]) ([(s8, v6)]) (Some [(s8, v12)]))
  ; (520, V (Some [(s8, e13)]) (Some [(s8, e8)]) (Some [(s8, e56)]) ([(s8, v6)]) (Some [(s8, v12)]))
  ; (521, V (Some [(s8, e13)]) (Some [(s8, e9)]) (Some [(s8, e57)]) ([(s8, v6)]) (Some [(s8, v12)]))
  ; (522, V (Some [(s8, e12)]) (Some [(s8, e8)]) (Some [(s8, e56)]) ([]) (Some [(s8, v12)]))
  ; (523, V (Some [(s8, e12)]) (Some [(s8, e9)]) (Some [(s8, e56)]) ([]) (Some [(s8, v12)]))
  ; (524, V (Some [(s8, e13)]) (Some [(s8, e8)]) (Some [(s8, e56)]) ([]) (Some [(s8, v12)]))
  ; (525, V (Some [(s8, e13)]) (Some [(s8, e9)]) (Some [(s8, e57)]) ([]) (Some [(s8, v12)]))
  ; (526, V (Some [(s8, e50)]) (Some [(s8, e12)]) (Some [(s8, e12)]) ([(s8, v8)]) (Some [(s8, v8)]))
  ; (527, V (Some [(s8, e50)]) (Some [(s8, e13)]) (Some [(s8, e12)]) ([(s8, v8)]) (Some [(s8, v8)]))
  ; (528, V (Some [(s8, e52)]) (Some [(s8, e12)]) (Some [(s8, e12)]) ([(s8, v8)]) (Some [(s8, v8)]))
  ; (529, V (Some [(s8, e52)]) (Some [(s8, e13)]) (Some [(s8, e13)]) ([(s8, v8)]) (Some [(s8, v8)]))
  ; (530, V (Some [(s8, e50)]) (Some [(s8, e12)]) (Some [(s8, e12)]) ([(s8, v10)]) (Some [(s8, v19)]))
  ; (531, V (Some [(s8, e50)]) (Some [(s8, e13)]) (Some [(s8, e12)]) ([(s8, v10)]) (Some [(s8, v19)]))
  ; (532, V (Some [(s8, e52)]) (Some [(s8, e12)]) (Some [(s8, e12)]) ([(s8, v10)]) (Some [(s8, v19)]))
  ; (533, V (Some [(s8, e52)]) (Some [(s8, e13)]) (Some [(s8, e13)]) ([(s8, v10)]) (Some [(s8, v19)]))
  ; (534, V (Some [(s8, e50)]) (Some [(s8, e12)]) (Some [(s8, e12)]) ([(s8, v12)]) (Some [(s8, v12)]))
  ; (535, V (Some [(s8, e50)]) (Some [(s8, e13)]) (Some [(s8, e12)]) ([(s8, v12)]) (Some [(s8, v12)]))
  ; (536, V (Some [(s8, e52)]) (Some [(s8, e12)]) (Some [(s8, e12)]) ([(s8, v12)]) (Some [(s8, v12)]))
  ; (537, V (Some [(s8, e52)]) (Some [(s8, e13)]) (Some [(s8, e13)]) ([(s8, v12)]) (Some [(s8, v12)]))
  ; (538, V (Some [(s8, e50)]) (Some [(s8, e12)]) (Some [(s8, e12)]) ([(s8, v13)]) (Some [(s8, v13)]))
  ; (539, V (Some [(s8, e50)]) (Some [(s8, e13)]) (Some [(s8, e12)]) ([(s8, v13)]) (Some [(s8, v13)]))
  ; (540, V (Some [(s8, e52)]) (Some [(s8, e12)]) (Some [(s8, e12)]) ([(s8, v13)]) (Some [(s8, v13)]))
  ; (541, V (Some [(s8, e52)]) (Some [(s8, e13)]) (Some [(s8, e13)]) ([(s8, v13)]) (Some [(s8, v13)]))
  ; (542, V (Some [(s8, e50)]) (Some [(s8, e12)]) (Some [(s8, e12)]) ([(s8, v6)]) (Some [(s8, v8)]))
  ; (543, V (Some [(s8, e50)]) (Some [(s8, e13)]) (Some [(s8, e12)]) ([(s8, v6)]) (Some [(s8, v8)]))
  ; (544, V (Some [(s8, e52)]) (Some [(s8, e12)]) (Some [(s8, e12)]) ([(s8, v6)]) (Some [(s8, v8)]))
  ; (545, V (Some [(s8, e52)]) (Some [(s8, e13)]) (Some [(s8, e13)]) ([(s8, v6)]) (Some [(s8, v8)]))
  ; (546, V (Some [(s8, e50)]) (Some [(s8, e12)]) (Some [(s8, e12)]) ([]) (Some [(s8, v8)]))
  ; (547, V (Some [(s8, e50)]) (Some [(s8, e13)]) (Some [(s8, e12)]) ([]) (Some [(s8, v8)]))
  ; (548, V (Some [(s8, e52)]) (Some [(s8, e12)]) (Some [(s8, e12)]) ([]) (Some [(s8, v8)]))
  ; (549, V (Some [(s8, e52)]) (Some [(s8, e13)]) (Some [(s8, e13)]) ([]) (Some [(s8, v8)]))
  ; (550, V (Some [(s8, e50)]) (Some [(s8, e14)]) (Some [(s8, e14)]) ([(s8, v8)]) (Some [(s8, v12)]))
  ; (551, V (Some [(s8, e50)]) (Some [(s8, e15)]) (Some [(s8, e14)]) ([(s8, v8)]) (Some [(s8, v12)]))
  ; (552, V (Some [(s8, e52)]) (Some [(s8, e14)]) (Some [(s8, e14)]) ([(s8, v8)]) (Some [(s8, v12)]))
  ; (553, V (Some [(s8, e52)]) (Some [(s8, e15)]) (Some [(s8, e15)]) ([(s8, v8)]) (Some [(s8, v12)]))
  ; (554, V (Some [(s8, e50)]) (Some [(s8, e14)]) (Some [(s8, e14)]) ([(s8, v10)]) (Some [(s8, v20)]))
  ; (555, V (Some [(s8, e50)]) (Some [(s8, e15)]) (Some [(s8, e14)]) ([(s8, v10)]) (Some [(s8, v20)]))
  ; (556, V (Some [(s8, e52)]) (Some [(s8, e14)]) (Some [(s8, e14)]) ([(s8, v10)]) (Some [(s8, v20)]))
  ; (557, V (Some [(s8, e52)]) (Some [(s8, e15)]) (Some [(s8, e15)]) ([(s8, v10)]) (Some [(s8, v20)]))
  ; (558, V (Some [(s8, e50)]) (Some [(s8, e14)]) (Some [(s8, e14)]) ([(s8, v12)]) (Some [(s8, v12)]))
  ; (559, V (Some [(s8, e50)]) (Some [(s8, e15)]) (Some [(s8, e14)]) ([(s8, v12)]) (Some [(s8, v12)]))
  ; (560, V (Some [(s8, e52)]) (Some [(s8, e14)]) (Some [(s8, e14)]) ([(s8, v12)]) (Some [(s8, v12)]))
  ; (561, V (Some [(s8, e52)]) (Some [(s8, e15)]) (Some [(s8, e15)]) ([(s8, v12)]) (Some [(s8, v12)]))
  ; (562, V (Some [(s8, e50)]) (Some [(s8, e14)]) (Some [(s8, e14)]) ([(s8, v13)]) (Some [(s8, v21)]))
  ; (563, V (Some [(s8, e50)]) (Some [(s8, e15)]) (Some [(s8, e14)]) ([(s8, v13)]) (Some [(s8, v21)]))
  ; (564, V (Some [(s8, e52)]) (Some [(s8, e14)]) (Some [(s8, e14)]) ([(s8, v13)]) (Some [(s8, v21)]))
  ; (565, V (Some [(s8, e52)]) (Some [(s8, e15)]) (Some [(s8, e15)]) ([(s8, v13)]) (Some [(s8, v21)]))
  ; (566, V (Some [(s8, e50)]) (Some [(s8, e14)]) (Some [(s8, e14)]) ([(s8, v6)]) (Some [(s8, v12)]))
  ; (567, V (Some [(s8, e50)]) (Some [(s8, e15)]) (Some [(s8, e14)]) ([(s8, v6)]) (Some [(s8, v12)]))
  ; (568, V (Some [(s8, e52)]) (Some [(s8, e14)]) (Some [(s8, e14)]) ([(s8, v6)]) (Some [(s8, v12)]))
  ; (569, V (Some [(s8, e52)]) (Some [(s8, e15)]) (Some [(s8, e15)]) ([(s8, v6)]) (Some [(s8, v12)]))
  ; (570, V (Some [(s8, e50)]) (Some [(s8, e14)]) (Some [(s8, e14)]) ([]) (Some [(s8, v12)]))
  ; (571, V (Some [(s8, e50)]) (Some [(s8, e15)]) (Some [(s8, e14)]) ([]) (Some [(s8, v12)]))
  ; (572, V (Some [(s8, e52)]) (Some [(s8, e14)]) (Some [(s8, e14)]) ([]) (Some [(s8, v12)]))
  ; (573, V (Some [(s8, e52)]) (Some [(s8, e15)]) (Some [(s8, e15)]) ([]) (Some [(s8, v12)]))
  ; (574, V (Some [(s8, e12)]) (Some [(s8, e14)]) (Some [(s8, e14)]) ([(s8, v8)]) (Some [(s8, v12)]))
  ; (575, V (Some [(s8, e12)]) (Some [(s8, e15)]) (Some [(s8, e14)]) ([(s8, v8)]) (Some [(s8, v12)]))
  ; (576, V (Some [(s8, e13)]) (Some [(s8, e14)]) (Some [(s8, e14)]) ([(s8, v8)]) (Some [(s8, v12)]))
  ; (577, V (Some [(s8, e13)]) (Some [(s8, e15)]) (Some [(s8, e15)]) ([(s8, v8)]) (Some [(s8, v12)]))
  ; (578, V (Some [(s8, e12)]) (Some [(s8, e14)]) (Some [(s8, e14)]) ([(s8, v10)]) (Some [(s8, v20)]))
  ; (579, V (Some [(s8, e12)]) (Some [(s8, e15)]) (Some [(s8, e14)]) ([(s8, v10)]) (Some [(s8, v20)]))
  ; (580, V (Some [(s8, e13)]) (Some [(s8, e14)]) (Some [(s8, e14)]) ([(s8, v10)]) (Some [(s8, v20)]))
  ; (581, V (Some [(s8, e13)]) (Some [(s8, e15)]) (Some [(s8, e15)]) ([(s8, v10)]) (Some [(s8, v20)]))
  ; (582, V (Some [(s8, e12)]) (Some [(s8, e14)]) (Some [(s8, e14)]) ([(s8, v12)]) (Some [(s8, v12)]))
  ; (583, V (Some [(s8, e12)]) (Some [(s8, e15)]) (Some [(s8, e14)]) ([(s8, v12)]) (Some [(s8, v12)]))
  ; (584, V (Some [(s8, e13)]) (Some [(s8, e14)]) (Some [(s8, e14)]) ([(s8, v12)]) (Some [(s8, v12)]))
  ; (585, V (Some [(s8, e13)]) (Some [(s8, e15)]) (Some [(s8, e15)]) ([(s8, v12)]) (Some [(s8, v12)]))
  ; (586, V (Some [(s8, e12)]) (Some [(s8, e14)]) (Some [(s8, e14)]) ([(s8, v13)]) (Some [(s8, v21)]))
  ; (587, V (Some [(s8, e12)]) (Some [(s8, e15)]) (Some [(s8, e14)]) ([(s8, v13)]) (Some [(s8, v21)]))
  ; (588, V (Some [(s8, e13)]) (Some [(s8, e14)]) (Some [(s8, e14)]) ([(s8, v13)]) (Some [(s8, v21)]))
  ; (589, V (Some [(s8, e13)]) (Some [(s8, e15)]) (Some [(s8, e15)]) ([(s8, v13)]) (Some [(s8, v21)]))
  ; (590, V (Some [(s8, e12)]) (Some [(s8, e14)]) (Some [(s8, e14)]) ([(s8, v6)]) (Some [(s8, v12)]))
  ; (591, V (Some [(s8, e12)]) (Some [(s8, e15)]) (Some [(s8, e14)]) ([(s8, v6)]) (Some [(s8, v12)]))
  ; (592, V (Some [(s8, e13)]) (Some [(s8, e14)]) (Some [(s8, e14)]) ([(s8, v6)]) (Some [(s8, v12)]))
  ; (593, V (Some [(s8, e13)]) (Some [(s8, e15)]) (Some [(s8, e15)]) ([(s8, v6)]) (Some [(s8, v12)]))
  ; (594, V (Some [(s8, e12)]) (Some [(s8, e14)]) (Some [(s8, e14)]) ([]) (Some [(s8, v12)]))
  ; (595, V (Some [(s8, e12)]) (Some [(s8, e15)]) (Some [(s8, e14)]) ([]) (Some [(s8, v12)]))
  ; (596, V (Some [(s8, e13)]) (Some [(s8, e14)]) (Some [(s8, e14)]) ([]) (Some [(s8, v12)]))
  ; (597, V (Some [(s8, e13)]) (Some [(s8, e15)]) (Some [(s8, e15)]) ([]) (Some [(s8, v12)]))
  ; (598, V (Some [(s8, e50)]) (Some [(s8, e21)]) (Some [(s8, e58)]) ([(s8, v8)]) (Some [(s8, v8)]))
  ; (599, V (Some [(s8, e50)]) (Some [(s8, e23)]) (Some [(s8, e58)]) ([(s8, v8)]) (Some [(s8, v8)]))
  ; (600, V (Some [(s8, e52)]) (Some [(s8, e21)]) (Some [(s8, e58)]) ([(s8, v8)]) (Some [(s8, v8)]))
  ; (601, V (Some [(s8, e52)]) (Some [(s8, e23)]) (Some [(s8, e59)]) ([(s8, v8)]) (Some [(s8, v8)]))
  ; (602, V (Some [(s8, e50)]) (Some [(s8, e21)]) (Some [(s8, e58)]) ([(s8, v10)]) (Some [(s8, v10)]))
  ; (603, V (Some [(s8, e50)]) (Some [(s8, e23)]) (Some [(s8, e58)]) ([(s8, v10)]) (Some [(s8, v10)]))
  ; (604, V (Some [(s8, e52)]) (Some [(s8, e21)]) (Some [(s8, e58)]) ([(s8, v10)]) (Some [(s8, v10)]))
  ; (605, V (Some [(s8, e52)]) (Some [(s8, e23)]) (Some [(s8, e59)]) ([(s8, v10)]) (Some [(s8, v10)]))
  ; (606, V (Some [(s8, e50)]) (Some [(s8, e21)]) (Some [(s8, e58)]) ([(s8, v12)]) (Some [(s8, v12)]))
  ; (607, V (Some [(s8, e50)]) (Some [(s8, e23)]) (Some [(s8, e58)]) ([(s8, v12)]) (Some [(s8, v12)]))
  ; (608, V (Some [(s8, e52)]) (Some [(s8, e21)]) (Some [(s8, e58)]) ([(s8, v12)]) (Some [(s8, v12)]))
  ; (609, V (Some [(s8, e52)]) (Some [(s8, e23)]) (Some [(s8, e59)]) ([(s8, v12)]) (Some [(s8, v12)]))
  ; (610, V (Some [(s8, e50)]) (Some [(s8, e21)]) (Some [(s8, e58)]) ([(s8, v13)]) (Some [(s8, v13)]))
  ; (611, V (Some [(s8, e50)]) (Some [(s8, e23)]) (Some [(s8, e58)]) ([(s8, v13)]) (Some [(s8, v13)]))
  ; (612, V (Some [(s8, e52)]) (Some [(s8, e21)]) (Some [(s8, e58)]) ([(s8, v13)]) (Some [(s8, v13)]))
  ; (613, V (Some [(s8, e52)]) (Some [(s8, e23)]) (Some [(s8, e59)]) ([(s8, v13)]) (Some [(s8, v13)]))
  ; (614, V (Some [(s8, e50)]) (Some [(s8, e21)]) (Some [(s8, e58)]) ([(s8, v6)]) (Some [(s8, v6)]))
  ; (615, V (Some [(s8, e50)]) (Some [(s8, e23)]) (Some [(s8, e58)]) ([(s8, v6)]) (Some [(s8, v6)]))
  ; (616, V (Some [(s8, e52)]) (Some [(s8, e21)]) (Some [(s8, e58)]) ([(s8, v6)]) (Some [(s8, v6)]))
  ; (617, V (Some [(s8, e52)]) (Some [(s8, e23)]) (Some [(s8, e59)]) ([(s8, v6)]) (Some [(s8, v6)]))
  ; (618, V (Some [(s8, e50)]) (Some [(s8, e21)]) (Some [(s8, e58)]) ([]) (Some [(s8, v6)]))
  ; (619, V (Some [(s8, e50)]) (Some [(s8, e23)]) (Some [(s8, e58)]) ([]) (Some [(s8, v6)]))
  ; (620, V (Some [(s8, e52)]) (Some [(s8, e21)]) (Some [(s8, e58)]) ([]) (Some [(s8, v6)]))
  ; (621, V (Some [(s8, e52)]) (Some [(s8, e23)]) (Some [(s8, e59)]) ([]) (Some [(s8, v6)]))
  ; (622, V (Some [(s8, e50)]) (Some [(s8, e25)]) (Some [(s8, e60)]) ([(s8, v8)]) (Some [(s8, v8)]))
  ; (623, V (Some [(s8, e50)]) (Some [(s8, e27)]) (Some [(s8, e60)]) ([(s8, v8)]) (Some [(s8, v8)]))
  ; (624, V (Some [(s8, e52)]) (Some [(s8, e25)]) (Some [(s8, e60)]) ([(s8, v8)]) (Some [(s8, v8)]))
  ; (625, V (Some [(s8, e52)]) (Some [(s8, e27)]) (Some [(s8, e61)]) ([(s8, v8)]) (Some [(s8, v8)]))
  ; (626, V (Some [(s8, e50)]) (Some [(s8, e25)]) (Some [(s8, e60)]) ([(s8, v10)]) (Some [(s8, v10)]))
  ; (627, V (Some [(s8, e50)]) (Some [(s8, e27)]) (Some [(s8, e60)]) ([(s8, v10)]) (Some [(s8, v10)]))
  ; (628, V (Some [(s8, e52)]) (Some [(s8, e25)]) (Some [(s8, e60)]) ([(s8, v10)]) (Some [(s8, v10)]))
  ; (629, V (Some [(s8, e52)]) (Some [(s8, e27)]) (Some [(s8, e61)]) ([(s8, v10)]) (Some [(s8, v10)]))
  ; (630, V (Some [(s8, e50)]) (Some [(s8, e25)]) (Some [(s8, e60)]) ([(s8, v12)]) (Some [(s8, v12)]))
  ; (631, V (Some [(s8, e50)]) (Some [(s8, e27)]) (Some [(s8, e60)]) ([(s8, v12)]) (Some [(s8, v12)]))
  ; (632, V (Some [(s8, e52)]) (Some [(s8, e25)]) (Some [(s8, e60)]) ([(s8, v12)]) (Some [(s8, v12)]))
  ; (633, V (Some [(s8, e52)]) (Some [(s8, e27)]) (Some [(s8, e61)]) ([(s8, v12)]) (Some [(s8, v12)]))
  ; (634, V (Some [(s8, e50)]) (Some [(s8, e25)]) (Some [(s8, e60)]) ([(s8, v13)]) (Some [(s8, v13)]))
  ; (635, V (Some [(s8, e50)]) (Some [(s8, e27)]) (Some [(s8, e60)]) ([(s8, v13)]) (Some [(s8, v13)]))
  ; (636, V (Some [(s8, e52)]) (Some [(s8, e25)]) (Some [(s8, e60)]) ([(s8, v13)]) (Some [(s8, v13)]))
  ; (637, V (Some [(s8, e52)]) (Some [(s8, e27)]) (Some [(s8, e61)]) ([(s8, v13)]) (Some [(s8, v13)]))
  ; (638, V (Some [(s8, e50)]) (Some [(s8, e25)]) (Some [(s8, e60)]) ([(s8, v6)]) (Some [(s8, v6)]))
  ; (639, V (Some [(s8, e50)]) (Some [(s8, e27)]) (Some [(s8, e60)]) ([(s8, v6)]) (Some [(s8, v6)]))
  ; (640, V (Some [(s8, e52)]) (Some [(s8, e25)]) (Some [(s8, e60)]) ([(s8, v6)]) (Some [(s8, v6)])) ].
Definition vectors3 : list (nat * vector) :=
  [ (641, V (Some [(s8, e52)]) (Some [(s8, e27)]) (Some [(s8, e61)]) ([(s8, v6)]) (Some [(s8, v6)]))
  ; (642, V (Some [(s8, e50)]) (Some [(s8, e25)]) (Some [(s8, e60)]) ([]) (Some [(s8, v6)]))
  ; (643, V (Some [(s8, e50)]) (Some [(s8, e27)]) (Some [(s8, e60)]) ([]) (Some [(s8, v6)]))
  ; (644, V (Some [(s8, e52)]) (Some [(s8, e25)]) (Some [(s8, e60)]) ([]) (Some [(s8, v6)]))
  ; (645, V (Some [(s8, e52)]) (Some [(s8, e27)]) (Some [(s8, e61)]) ([]) (Some [(s8, v6)]))
  ; (646, V (Some [(s8, e12)]) (Some [(s8, e25)]) (Some [(s8, e62)]) ([(s8, v8)]) (Some [(s8, v8)]))
  ; (647, V (Some [(s8, e12)]) (Some [(s8, e27)]) (Some [(s8, e62)]) ([(s8, v8)]) (Some [(s8, v8)]))
  ; (648, V (Some [(s8, e13)]) (Some [(s8, e25)]) (Some [(s8, e62)]) ([(s8, v8)]) (Some [(s8, v8)]))
  ; (649, V (Some [(s8, e13)]) (Some [(s8, e27)]) (Some [(s8, e63)]) ([(s8, v8)]) (Some [(s8, v8)]))
  ; (650, V (Some [(s8, e12)]) (Some [(s8, e25)]) (Some [(s8, e62)]) ([(s8, v10)]) (Some [(s8, v19)]))
  ; (651, V (Some [(s8, e12)]) (Some [(s8, e27)]) (Some [(s8, e62)]) ([(s8, v10)]) (Some [(s8, v19)]))
  ; (652, V (Some [(s8, e13)]) (Some [(s8, e25)]) (Some [(s8, e62)]) ([(s8, v10)]) (Some [(s8, v19)]))
  ; (653, V (Some [(s8, e13)]) (Some [(s8, e27)]) (Some [(s8, e63)]) ([(s8, v10)]) (Some [(s8, v19)]))
  ; (654, V (Some [(s8, e12)]) (Some [(s8, e25)]) (Some [(s8, e62)]) ([(s8, v12)]) (Some [(s8, v12)]))
  ; (655, V (Some [(s8, e12)]) (Some [(s8, e27)]) (Some [(s8, e62)]) ([(s8, v12)]) (Some [(s8, v12)]))
  ; (656, V (Some [(s8, e13)]) (Some [(s8, e25)]) (Some [(s8, e62)]) ([(s8, v12)]) (Some [(s8, v12)]))
  ; (657, V (Some [(s8, e13)]) (Some [(s8, e27)]) (Some [(s8, e63)]) ([(s8, v12)]) (Some [(s8, v12)]))
  ; (658, V (Some [(s8, e12)]) (Some [(s8, e25)]) (Some [(s8, e62)]) ([(s8, v13)]) (Some [(s8, v13)]))
  ; (659, V (Some [(s8, e12)]) (Some [(s8, e27)]) (Some [(s8, e62)]) ([(s8, v13)]) (Some [(s8, v13)]))
  ; (660, V (Some [(s8, e13)]) (Some [(s8, e25)]) (Some [(s8, e62)]) ([(s8, v13)]) (Some [(s8, v13)]))
  ; (661, V (Some [(s8, e13)]) (Some [(s8, e27)]) (Some [(s8, e63)]) ([(s8, v13)]) (Some [(s8, v13)]))
  ; (662, V (Some [(s8, e12)]) (Some [(s8, e25)]) (Some [(s8, e62)]) ([(s8, v6)]) (Some [(s8, v8)]))
  ; (663, V (Some [(s8, e12)]) (Some [(s8, e27)]) (Some [(s8, e62)]) ([(s8, v6)]) (Some [(s8, v8)]))
  ; (664, V (Some [(s8, e13)]) (Some [(s8, e25)]) (Some [(s8, e62)]) ([(s8, v6)]) (Some [(s8, v8)]))
  ; (665, V (Some [(s8, e13)]) (Some [(s8, e27)]) (Some [(s8, e63)]) ([(s8, v6)]) (Some [(s8, v8)]))
  ; (666, V (Some [(s8, e12)]) (Some [(s8, e25)]) (Some [(s8, e62)]) ([]) (Some [(s8, v8)]))
  ; (667, V (Some [(s8, e12)]) (Some [(s8, e27)]) (Some [(s8, e62)]) ([]) (Some [(s8, v8)]))
  ; (668, V (Some [(s8, e13)]) (Some [(s8, e25)]) (Some [(s8, e62)]) ([]) (Some [(s8, v8)]))
  ; (669, V (Some [(s8, e13)]) (Some [(s8, e27)]) (Some [(s8, e63)]) ([]) (Some [(s8, v8)]))
  ; (670, V (Some [(s8, e50)]) (Some [(s8, e36)]) (Some [(s8, e64)]) ([(s8, v8)]) (Some [(s8, v8)]))
  ; (671, V (Some [(s8, e50)]) (Some [(s8, e38)]) (Some [(s8, e64)]) ([(s8, v8)]) (Some [(s8, v8)]))
  ; (672, V (Some [(s8, e52)]) (Some [(s8, e36)]) (Some [(s8, e64)]) ([(s8, v8)]) (Some [(s8, v8)]))
  ; (673, V (Some [(s8, e52)]) (Some [(s8, e38)]) (Some [(s8, e65)]) ([(s8, v8)]) (Some [(s8, v8)]))
  ; (674, V (Some [(s8, e50)]) (Some [(s8, e36)]) (Some [(s8, e64)]) ([(s8, v10)]) (Some [(s8, v6)]))
  ; (675, V (Some [(s8, e50)]) (Some [(s8, e38)]) (Some [(s8, e64)]) ([(s8, v10)]) (Some [(s8, v6)]))
  ; (676, V (Some [(s8, e52)]) (Some [(s8, e36)]) (Some [(s8, e64)]) ([(s8, v10)]) (Some [(s8, v6)]))
  ; (677, V (Some [(s8, e52)]) (Some [(s8, e38)]) (Some [(s8, e65)]) ([(s8, v10)]) (Some [(s8, v6)]))
  ; (678, V (Some [(s8, e50)]) (Some [(s8, e36)]) (Some [(s8, e64)]) ([(s8, v12)]) (Some [(s8, v8)]))
  ; (679, V (Some [(s8, e50)]) (Some [(s8, e38)]) (Some [(s8, e64)]) ([(s8, v12)]) (Some [(s8, v8)]))
  ; (680, V (Some [(s8, e52)]) (Some [(s8, e36)]) (Some [(s8, e64)]) ([(s8, v12)]) (Some [(s8, v8)]))
  ; (681, V (Some [(s8, e52)]) (Some [(s8, e38)]) (Some [(s8, e65)]) ([(s8, v12)]) (Some [(s8, v8)]))
  ; (682, V (Some [(s8, e50)]) (Some [(s8, e36)]) (Some [(s8, e64)]) ([(s8, v13)]) (Some [(s8, v8)]))
  ; (683, V (Some [(s8, e50)]) (Some [(s8, e38)]) (Some [(s8, e64)]) ([(s8, v13)]) (Some [(s8, v8)]))
  ; (684, V (Some [(s8, e52)]) (Some [(s8, e36)]) (Some [(s8, e64)]) ([(s8, v13)]) (Some [(s8, v8)]))
  ; (685, V (Some [(s8, e52)]) (Some [(s8, e38)]) (Some [(s8, e65)]) ([(s8, v13)]) (Some [(s8, v8)]))
  ; (686, V (Some [(s8, e50)]) (Some [(s8, e36)]) (Some [(s8, e64)]) ([(s8, v6)]) (Some [(s8, v6)]))
  ; (687, V (Some [(s8, e50)]) (Some [(s8, e38)]) (Some [(s8, e64)]) ([(s8, v6)]) (Some [(s8, v6)]))
  ; (688, V (Some [(s8, e52)]) (Some [(s8, e36)]) (Some [(s8, e64)]) ([(s8, v6)]) (Some [(s8, v6)]))
  ; (689, V (Some [(s8, e52)]) (Some [(s8, e38)]) (Some [(s8, e65)]) ([(s8, v6)]) (Some [(s8, v6)]))
  ; (690, V (Some [(s8, e50)]) (Some [(s8, e36)]) (Some [(s8, e64)]) ([]) (Some [(s8, v6)]))
  ; (691, V (Some [(s8, e50)]) (Some [(s8, e38)]) (Some [(s8, e64)]) ([]) (Some [(s8, v6)]))
  ; (692, V (Some [(s8, e52)]) (Some [(s8, e36)]) (Some [(s8, e64)]) ([]) (Some [(s8, v6)]))
  ; (693, V (Some [(s8, e52)]) (Some [(s8, e38)]) (Some [(s8, e65)]) ([]) (Some [(s8, v6)]))
  ; (694, V (Some [(s8, e50)]) (Some [(s8, e40)]) (Some [(s8, e66)]) ([(s8, v8)]) (Some [(s8, v8)]))
  ; (695, V (Some [(s8, e50)]) (Some [(s8, e42)]) (Some [(s8, e66)]) ([(s8, v8)]) (Some [(s8, v8)]))
  ; (696, V (Some [(s8, e52)]) (Some [(s8, e40)]) (Some [(s8, e66)]) ([(s8, v8)]) (Some [(s8, v8)]))
  ; (697, V (Some [(s8, e52)]) (Some [(s8, e42)]) (Some [(s8, e67)]) ([(s8, v8)]) (Some [(s8, v8)]))
  ; (698, V (Some [(s8, e50)]) (Some [(s8, e40)]) (Some [(s8, e66)]) ([(s8, v10)]) (Some [(s8, v6)]))
  ; (699, V (Some [(s8, e50)]) (Some [(s8, e42)]) (Some [(s8, e66)]) ([(s8, v10)]) (Some [(s8, v6)]))
  ; (700, V (Some [(s8, e52)]) (Some [(s8, e40)]) (Some [(s8, e66)]) ([(s8, v10)]) (Some [(s8, v6)]))
  ; (701, V (Some [(s8, e52)]) (Some [(s8, e42)]) (Some [(s8, e67)]) ([(s8, v10)]) (Some [(s8, v6)]))
  ; (702, V (Some [(s8, e50)]) (Some [(s8, e40)]) (Some [(s8, e66)]) ([(s8, v12)]) (Some [(s8, v12)]))
  ; (703, V (Some [(s8, e50)]) (Some [(s8, e42)]) (Some [(s8, e66)]) ([(s8, v12)]) (Some [(s8, v12)]))
  ; (704, V (Some [(s8, e52)]) (Some [(s8, e40)]) (Some [(s8, e66)]) ([(s8, v12)]) (Some [(s8, v12)]))
  ; (705, V (Some [(s8, e52)]) (Some [(s8, e42)]) (Some [(s8, e67)]) ([(s8, v12)]) (Some [(s8, v12)]))
  ; (706, V (Some [(s8, e50)]) (Some [(s8, e40)]) (Some [(s8, e66)]) ([(s8, v13)]) (Some [(s8, v8)]))
  ; (707, V (Some [(s8, e50)]) (Some [(s8, e42)]) (Some [(s8, e66)]) ([(s8, v13)]) (Some [(s8, v8)]))
  ; (708, V (Some [(s8, e52)]) (Some [(s8, e40)]) (Some [(s8, e66)]) ([(s8, v13)]) (Some [(s8, v8)]))
  ; (709, V (Some [(s8, e52)]) (Some [(s8, e42)]) (Some [(s8, e67)]) ([(s8, v13)]) (Some [(s8, v8)]))
  ; (710, V (Some [(s8, e50)]) (Some [(s8, e40)]) (Some [(s8, e66)]) ([(s8, v6)]) (Some [(s8, v6)]))
  ; (711, V (Some [(s8, e50)]) (Some [(s8, e42)]) (Some [(s8, e66)]) ([(s8, v6)]) (Some [(s8, v6)]))
  ; (712, V (Some [(s8, e52)]) (Some [(s8, e40)]) (Some [(s8, e66)]) ([(s8, v6)]) (Some [(s8, v6)]))
  ; (713, V (Some [(s8, e52)]) (Some [(s8, e42)]) (Some [(s8, e67)]) ([(s8, v6)]) (Some [(s8, v6)]))
  ; (714, V (Some [(s8, e50)]) (Some [(s8, e40)]) (Some [(s8, e66)]) ([]) (Some [(s8, v6)]))
  ; (715, V (Some [(s8, e50)]) (Some [(s8, e42)]) (Some [(s8, e66)]) ([]) (Some [(s8, v6)]))
  ; (716, V (Some [(s8, e52)]) (Some [(s8, e40)]) (Some [(s8, e66)]) ([]) (Some [(s8, v6)]))
  ; (717, V (Some [(s8, e52)]) (Some [(s8, e42)]) (Some [(s8, e67)]) ([]) (Some [(s8, v6)]))
  ; (718, V (Some [(s8, e12)]) (Some [(s8, e40)]) (Some [(s8, e68)]) ([(s8, v8)]) (Some [(s8, v8)]))
  ; (719, V (Some [(s8, e12)]) (Some [(s8, e42)]) (Some [(s8, e68)]) ([(s8, v8)]) (Some [(s8, v8)]))
  ; (720, V (Some [(s8, e13)]) (Some [(s8, e40)]) (Some [(s8, e68)]) ([(s8, v8)]) (Some [(s8, v8)]))
  ; (721, V (Some [(s8, e13)]) (Some [(s8, e42)]) (Some [(s8, e69)]) ([(s8, v8)]) (Some [(s8, v8)]))
  ; (722, V (Some [(s8, e12)]) (Some [(s8, e40)]) (Some [(s8, e68)]) ([(s8, v10)]) (Some [(s8, v8)]))
  ; (723, V (Some [(s8, e12)]) (Some [(s8, e42)]) (Some [(s8, e68)]) ([(s8, v10)]) (Some [(s8, v8)]))
  ; (724, V (Some [(s8, e13)]) (Some [(s8, e40)]) (Some [(s8, e68)]) ([(s8, v10)]) (Some [(s8, v8)]))
  ; (725, V (Some [(s8, e13)]) (Some [(s8, e42)]) (Some [(s8, e69)]) ([(s8, v10)]) (Some [(s8, v8)]))
  ; (726, V (Some [(s8, e12)]) (Some [(s8, e40)]) (Some [(s8, e68)]) ([(s8, v12)]) (Some [(s8, v12)]))
  ; (727, V (Some [(s8, e12)]) (Some [(s8, e42)]) (Some [(s8, e68)]) ([(s8, v12)]) (Some [(s8, v12)]))
  ; (728, V (Some [(s8, e13)]) (Some [(s8, e40)]) (Some [(s8, e68)]) ([(s8, v12)]) (Some [(s8, v12)]))
  ; (729, V (Some [(s8, e13)]) (Some [(s8, e42)]) (Some [(s8, e69)]) ([(s8, v12)]) (Some [(s8, v12)]))
  ; (730, V (Some [(s8, e12)]) (Some [(s8, e40)]) (Some [(s8, e68)]) ([(s8, v13)]) (Some [(s8, v8)]))
  ; (731, V (Some [(s8, e12)]) (Some [(s8, e42)]) (Some [(s8, e68)]) ([(s8, v13)]) (Some [(s8, v8)]))
  ; (732, V (Some [(s8, e13)]) (Some [(s8, e40)]) (Some [(s8, e68)]) ([(s8, v13)]) (Some [(s8, v8)]))
  ; (733, V (Some [(s8, e13)]) (Some [(s8, e42)]) (Some [(s8, e69)]) ([(s8, v13)]) (Some [(s8, v8)]))
  ; (734, V (Some [(s8, e12)]) (Some [(s8, e40)]) (Some [(s8, e68)]) ([(s8, v6)]) (Some [(s8, v8)]))
  ; (735, V (Some [(s8, e12)]) (Some [(s8, e42)]) (Some [(s8, e68)]) ([(s8, v6)]) (Some [(s8, v8)]))
  ; (736, V (Some [(s8, e13)]) (Some [(s8, e40)]) (Some [(s8, e68)]) ([(s8, v6)]) (Some [(s8, v8)]))
  ; (737, V (Some [(s8, e13)]) (Some [(s8, e42)]) (Some [(s8, e69)]) ([(s8, v6)]) (Some [(s8, v8)]))
  ; (738, V (Some [(s8, e12)]) (Some [(s8, e40)]) (Some [(s8, e68)]) ([]) (Some [(s8, v8)]))
  ; (739, V (Some [(s8, e12)]) (Some [(s8, e42)]) (Some [(s8, e68)]) ([]) (Some [(s8, v8)]))
  ; (740, V (Some [(s8, e13)]) (Some [(s8, e40)]) (Some [(s8, e68)]) ([]) (Some [(s8, v8)]))
  ; (741, V (Some [(s8, e13)]) (Some [(s8, e42)]) (Some [(s8, e69)]) ([]) (Some [(s8, v8)]))
  ; (742, V (Some [(s8, e50)]) (Some [(s8, e46)]) (Some [(s8, e70)]) ([(s8, v8)]) (Some [(s8, v8)]))
  ; (743, V (Some [(s8, e50)]) (Some [(s8, e47)]) (Some [(s8, e70)]) ([(s8, v8)]) (Some [(s8, v8)]))
  ; (744, V (Some [(s8, e52)]) (Some [(s8, e46)]) (Some [(s8, e70)]) ([(s8, v8)]) (Some [(s8, v8)]))
  ; (745, V (Some [(s8, e52)]) (Some [(s8, e47)]) (Some [(s8, e71)]) ([(s8, v8)]) (Some [(s8, v8)]))
  ; (746, V (Some [(s8, e50)]) (Some [(s8, e46)]) (Some [(s8, e70)]) ([(s8, v10)]) (None))
  ; (747, V (Some [(s8, e50)]) (Some [(s8, e47)]) (Some [(s8, e70)]) ([(s8, v10)]) (None))
  ; (748, V (Some [(s8, e52)]) (Some [(s8, e46)]) (Some [(s8, e70)]) ([(s8, v10)]) (None))
  ; (749, V (Some [(s8, e52)]) (Some [(s8, e47)]) (Some [(s8, e71)]) ([(s8, v10)]) (None))
  ; (750, V (Some [(s8, e50)]) (Some [(s8, e46)]) (Some [(s8, e70)]) ([(s8, v12)]) (Some [(s8, v12)]))
  ; (751, V (Some [(s8, e50)]) (Some [(s8, e47)]) (Some [(s8, e70)]) ([(s8, v12)]) (Some [(s8, v12)]))
  ; (752, V (Some [(s8, e52)]) (Some [(s8, e46)]) (Some [(s8, e70)]) ([(s8, v12)]) (Some [(s8, v12)]))
  ; (753, V (Some [(s8, e52)]) (Some [(s8, e47)]) (Some [(s8, e71)]) ([(s8, v12)]) (Some [(s8, v12)]))
  ; (754, V (Some [(s8, e50)]) (Some [(s8, e46)]) (Some [(s8, e70)]) ([(s8, v13)]) (Some [(s8, v13)]))
  ; (755, V (Some [(s8, e50)]) (Some [(s8, e47)]) (Some [(s8, e70)]) ([(s8, v13)]) (Some [(s8, v13)]))
  ; (756, V (Some [(s8, e52)]) (Some [(s8, e46)]) (Some [(s8, e70)]) ([(s8, v13)]) (Some [(s8, v13)]))
  ; (757, V (Some [(s8, e52)]) (Some [(s8, e47)]) (Some [(s8, e71)]) ([(s8, v13)]) (Some [(s8, v13)]))
  ; (758, V (Some [(s8, e50)]) (Some [(s8, e46)]) (Some [(s8, e70)]) ([(s8, v6)]) (None))
  ; (759, V (Some [(s8, e50)]) (Some [(s8, e47)]) (Some [(s8, e70)]) ([(s8, v6)]) (None))
  ; (760, V (Some [(s8, e52)]) (Some [(s8, e46)]) (Some [(s8, e70)]) ([(s8, v6)]) (None))
  ; (761, V (Some [(s8, e52)]) (Some [(s8, e47)]) (Some [(s8, e71)]) ([(s8, v6)]) (None))
  ; (762, V (Some [(s8, e50)]) (Some [(s8, e46)]) (Some [(s8, e70)]) ([]) (None))
  ; (763, V (Some [(s8, e50)]) (Some [(s8, e47)]) (Some [(s8, e70)]) ([]) (None))
  ; (764, V (Some [(s8, e52)]) (Some [(s8, e46)]) (Some [(s8, e70)]) ([]) (None))
  ; (765, V (Some [(s8, e52)]) (Some [(s8, e47)]) (Some [(s8, e71)]) ([]) (None))
  ; (766, V (Some [(s8, e50)]) (Some [(s8, e48)]) (Some [(s8, e72)]) ([(s8, v8)]) (None))
  ; (767, V (Some [(s8, e50)]) (Some [(s8, e49)]) (Some [(s8, e72)]) ([(s8, v8)]) (None))
  ; (768, V (Some [(s8, e52)]) (Some [(s8, e48)]) (Some [(s8, e72)]) ([(s8, v8)]) (None))
  ; (769, V (Some [(s8, e52)]) (Some [(s8, e49)]) (Some [(s8, e73)]) ([(s8, v8)]) (None))
  ; (770, V (Some [(s8, e50)]) (Some [(s8, e48)]) (Some [(s8, e72)]) ([(s8, v10)]) (None))
  ; (771, V (Some [(s8, e50)]) (Some [(s8, e49)]) (Some [(s8, e72)]) ([(s8, v10)]) (None))
  ; (772, V (Some [(s8, e52)]) (Some [(s8, e48)]) (Some [(s8, e72)]) ([(s8, v10)]) (None))
  ; (773, V (Some [(s8, e52)]) (Some [(s8, e49)]) (Some [(s8, e73)]) ([(s8, v10)]) (None))
  ; (774, V (Some [(s8, e50)]) (Some [(s8, e48)]) (Some [(s8, e72)]) ([(s8, v12)]) (Some [(s8, v12)]))
  ; (775, V (Some [(s8, e50)]) (Some [(s8, e49)]) (Some [(s8, e72)]) ([(s8, v12)]) (Some [(s8, v12)]))
  ; (776, V (Some [(s8, e52)]) (Some [(s8, e48)]) (Some [(s8, e72)]) ([(s8, v12)]) (Some [(s8, v12)]))
  ; (777, V (Some [(s8, e52)]) (Some [(s8, e49)]) (Some [(s8, e73)]) ([(s8, v12)]) (Some [(s8, v12)]))
  ; (778, V (Some [(s8, e50)]) (Some [(s8, e48)]) (Some [(s8, e72)]) ([(s8, v13)]) (None))
  ; (779, V (Some [(s8, e50)]) (Some [(s8, e49)]) (Some [(s8, e72)]) ([(s8, v13)]) (None))
  ; (780, V (Some [(s8, e52)]) (Some [(s8, e48)]) (Some [(s8, e72)]) ([(s8, v13)]) (None))
  ; (781, V (Some [(s8, e52)]) (Some [(s8, e49)]) (Some [(s8, e73)]) ([(s8, v13)]) (None))
  ; (782, V (Some [(s8, e50)]) (Some [(s8, e48)]) (Some [(s8, e72)]) ([(s8, v6)]) (None))
  ; (783, V (Some [(s8, e50)]) (Some [(s8, e49)]) (Some [(s8, e72)]) ([(s8, v6)]) (None))
  ; (784, V (Some [(s8, e52)]) (Some [(s8, e48)]) (Some [(s8, e72)]) ([(s8, v6)]) (None))
  ; (785, V (Some [(s8, e52)]) (Some [(s8, e49)]) (Some [(s8, e73)]) ([(s8, v6)]) (None))
  ; (786, V (Some [(s8, e50)]) (Some [(s8, e48)]) (Some [(s8, e72)]) ([]) (None))
  ; (787, V (Some [(s8, e50)]) (Some [(s8, e49)]) (Some [(s8, e72)]) ([]) (None))
  ; (788, V (Some [(s8, e52)]) (Some [(s8, e48)]) (Some [(s8, e72)]) ([]) (None))
  ; (789, V (Some [(s8, e52)]) (Some [(s8, e49)]) (Some [(s8, e73)]) ([]) (None))
  ; (790, V (Some [(s8, e12)]) (Some [(s8, e48)]) (Some [(s8, e74)]) ([(s8, v8)]) (None))
  ; (791, V (Some [(s8, e12)]) (Some [(s8, e49)]) (Some [(s8, e74)]) ([(s8, v8)]) (None))
  ; (792, V (Some [(s8, e13)]) (Some [(s8, e48)]) (Some [(s8, e74)]) ([(s8, v8)]) (None))
  ; (793, V (Some [(s8, e13)]) (Some [(s8, e49)]) (Some [(s8, e75)]) ([(s8, v8)]) (None))
  ; (794, V (Some [(s8, e12)]) (Some [(s8, e48)]) (Some [(s8, e74)]) ([(s8, v10)]) (None))
  ; (795, V (Some [(s8, e12)]) (Some [(s8, e49)]) (Some [(s8, e74)]) ([(s8, v10)]) (None))
  ; (796, V (Some [(s8, e13)]) (Some [(s8, e48)]) (Some [(s8, e74)]) ([(s8, v10)]) (None))
  ; (797, V (Some [(s8, e13)]) (Some [(s8, e49)]) (Some [(s8, e75)]) ([(s8, v10)]) (None))
  ; (798, V (Some [(s8, e12)]) (Some [(s8, e48)]) (Some [(s8, e74)]) ([(s8, v12)]) (Some [(s8, v12)]))
  ; (799, V (Some [(s8, e12)]) (Some [(s8, e49)]) (Some [(s8, e74)]) ([(s8, v12)]) (Some [(s8, v12)]))
  ; (800, V (Some [(s8, e13)]) (Some [(s8, e48)]) (Some [(s8, e74)]) ([(s8, v12)]) (Some [(s8, v12)]))
  ; (801, V (Some [(s8, e13)]) (Some [(s8, e49)]) (Some [(s8, e75)]) ([(s8, v12)]) (Some [(s8, v12)]))
  ; (802, V (Some [(s8, e12)]) (Some [(s8, e48)]) (Some [(s8, e74)]) ([(s8, v13)]) (None))
  ; (803, V (Some [(s8, e12)]) (Some [(s8, e49)]) (Some [(s8, e74)]) ([(s8, v13)]) (None))
  ; (804, V (Some [(s8, e13)]) (Some [(s8, e48)]) (Some [(s8, e74)]) ([(s8, v13)]) (None))
  ; (805, V (Some [(s8, e13)]) (Some [(s8, e49)]) (Some [(s8, e75)]) ([(s8, v13)]) (None))
  ; (806, V (Some [(s8, e12)]) (Some [(s8, e48)]) (Some [(s8, e74)]) ([(s8, v6)]) (None))
  ; (807, V (Some [(s8, e12)]) (Some [(s8, e49)]) (Some [(s8, e74)]) ([(s8, v6)]) (None))
  ; (808, V (Some [(s8, e13)]) (Some [(s8, e48)]) (Some [(s8, e74)]) ([(s8, v6)]) (None))
  ; (809, V (Some [(s8, e13)]) (Some [(s8, e49)]) (Some [(s8, e75)]) ([(s8, v6)]) (None))
  ; (810, V (Some [(s8, e12)]) (Some [(s8, e48)]) (Some [(s8, e74)]) ([]) (None))
  ; (811, V (Some [(s8, e12)]) (Some [(s8, e49)]) (Some [(s8, e74)]) ([]) (None))
  ; (812, V (Some [(s8, e13)]) (Some [(s8, e48)]) (Some [(s8, e74)]) ([]) (None))
  ; (813, V (Some [(s8, e13)]) (Some [(s8, e49)]) (Some [(s8, e75)]) ([]) (None))
  ; (814, V (Some [(s0, e16)]) (Some [(s0, e0)]) (Some [(s0, e17)]) ([(s0, v0)]) (Some [(s0, v0)]))
  ; (815, V (Some [(s0, e16)]) (Some [(s0, e1)]) (Some [(s0, e17)]) ([(s0, v0)]) (Some [(s0, v0)]))
  ; (816, V (Some [(s0, e18)]) (Some [(s0, e0)]) (Some [(s0, e17)]) ([(s0, v0)]) (Some [(s0, v0)]))
  ; (817, V (Some [(s0, e18)]) (Some [(s0, e1)]) (Some [(s0, e19)]) ([(s0, v0)]) (Some [(s0, v0)]))
  ; (818, V (Some [(s0, e16)]) (Some [(s0, e0)]) (Some [(s0, e17)]) ([(s0, v2)]) (Some [(s0, v0)]))
  ; (819, V (Some [(s0, e16)]) (Some [(s0, e1)]) (Some [(s0, e17)]) ([(s0, v2)]) (Some [(s0, v0)]))
  ; (820, V (Some [(s0, e18)]) (Some [(s0, e0)]) (Some [(s0, e17)]) ([(s0, v2)]) (Some [(s0, v0)]))
  ; (821, V (Some [(s0, e18)]) (Some [(s0, e1)]) (Some [(s0, e19)]) ([(s0, v2)]) (Some [(s0, v0)]))
  ; (822, V (Some [(s0, e16)]) (Some [(s0, e0)]) (Some [(s0, e17)]) ([]) (Some [(s0, v0)]))
  ; (823, V (Some [(s0, e16)]) (Some [(s0, e1)]) (Some [(s0, e17)]) ([]) (Some [(s0, v0)]))
  ; (824, V (Some [(s0, e18)]) (Some [(s0, e0)]) (Some [(s0, e17)]) ([]) (Some [(s0, v0)]))
  ; (825, V (Some [(s0, e18)]) (Some [(s0, e1)]) (Some [(s0, e19)]) ([]) (Some [(s0, v0)]))
  ; (826, V (Some [(s8, e76)]) (Some [(s8, e5)]) (Some [(s8, e77)]) ([(s8, v8)]) (Some [(s8, v8)]))
  ; (827, V (Some [(s8, e76)]) (Some [(s8, e6)]) (Some [(s8, e77)]) ([(s8, v8)]) (Some [(s8, v8)]))
  ; (828, V (Some [(s8, e78)]) (Some [(s8, e5)]) (Some [(s8, e77)]) ([(s8, v8)]) (Some [(s8, v8)]))
  ; (829, V (Some [(s8, e78)]) (Some [(s8, e6)]) (Some [(s8, e79)]) ([(s8, v8)]) (Some [(s8, v8)]))
  ; (830, V (Some [(s8, e76)]) (Some [(s8, e5)]) (Some [(s8, e77)]) ([(s8, v10)]) (Some [(s8, v8)]))
  ; (831, V (Some [(s8, e76)]) (Some [(s8, e6)]) (Some [(s8, e77)]) ([(s8, v10)]) (Some [(s8, v8)]))
  ; (832, V (Some [(s8, e78)]) (Some [(s8, e5)]) (Some [(s8, e77)]) ([(s8, v10)]) (Some [(s8, v8)]))
  ; (833, V (Some [(s8, e78)]) (Some [(s8, e6)]) (Some [(s8, e79)]) ([(s8, v10)]) (Some [(s8, v8)]))
  ; (834, V (Some [(s8, e76)]) (Some [(s8, e5)]) (Some [(s8, e77)]) ([(s8, v12)]) (Some [(s8, v8)]))
  ; (835, V (Some [(s8, e76)]) (Some [(s8, e6)]) (Some [(s8, e77)]) ([(s8, v12)]) (Some [(s8, v8)]))
  ; (836, V (Some [(s8, e78)]) (Some [(s8, e5)]) (Some [(s8, e77)]) ([(s8, v12)]) (Some [(s8, v8)]))
  ; (837, V (Some [(s8, e78)]) (Some [(s8, e6)]) (Some [(s8, e79)]) ([(s8, v12)]) (Some [(s8, v8)]))
  ; (838, V (Some [(s8, e76)]) (Some [(s8, e5)]) (Some [(s8, e77)]) ([(s8, v13)]) (Some [(s8, v8)]))
  ; (839, V (Some [(s8, e76)]) (Some [(s8, e6)]) (Some [(s8, e77)]) ([(s8, v13)]) (Some [(s8, v8)]))
  ; (840, V (Some [(s8, e78)]) (Some [(s8, e5)]) (Some [(s8, e77)]) ([(s8, v13)]) (Some [(s8, v8)])) ].
Definition vectors4 : list (nat * vector) :=
  [ (841, V (Some [(s8, e78)]) (Some [(s8, e6)]) (Some [(s8, e79)]) ([(s8, v13)]) (Some [(s8, v8)]))
  ; (842, V (Some [(s8, e76)]) (Some [(s8, e5)]) (Some [(s8, e77)]) ([(s8, v6)]) (Some [(s8, v8)]))
  ; (843, V (Some [(s8, e76)]) (Some [(s8, e6)]) (Some [(s8, e77)]) ([(s8, v6)]) (Some [(s8, v8)]))
  ; (844, V (Some [(s8, e78)]) (Some [(s8, e5)]) (Some [(s8, e77)]) ([(s8, v6)]) (Some [(s8, v8)]))
  ; (845, V (Some [(s8, e78)]) (Some [(s8, e6)]) (Some [(s8, e79)]) ([(s8, v6)]) (Some [(s8, v8)]))
  ; (846, V (Some [(s8, e76)]) (Some [(s8, e5)]) (Some [(s8, e77)]) ([]) (Some [(s8, v8)]))
  ; (847, V (Some [(s8, e76)]) (Some [(s8, e6)]) (Some [(s8, e77)]) ([]) (Some [(s8, v8)]))
  ; (848, V (Some [(s8, e78)]) (Some [(s8, e5)]) (Some [(s8, e77)]) ([]) (Some [(s8, v8)]))
  ; (849, V (Some [(s8, e78)]) (Some [(s8, e6)]) (Some [(s8, e79)]) ([]) (Some [(s8, v8)]))
  ; (850, V (Some [(s8, e76)]) (Some [(s8, e8)]) (Some [(s8, e80)]) ([(s8, v8)]) (Some [(s8, v12)]))
  ; (851, V (Some [(s8, e76)]) (Some [(s8, e9)]) (Some [(s8, e80)]) ([(s8, v8)]) (Some [(s8, v12)]))
  ; (852, V (Some [(s8, e78)]) (Some [(s8, e8)]) (Some [(s8, e80)]) ([(s8, v8)]) (Some [(s8, v12)]))
  ; (853, V (Some [(s8, e78)]) (Some [(s8, e9)]) (Some [(s8, e81)]) ([(s8, v8)]) (Some [(s8, v12)]))
  ; (854, V (Some [(s8, e76)]) (Some [(s8, e8)]) (Some [(s8, e80)]) ([(s8, v10)]) (Some [(s8, v12)]))
  ; (855, V (Some [(s8, e76)]) (Some [(s8, e9)]) (Some [(s8, e80)]) ([(s8, v10)]) (Some [(s8, v12)]))
  ; (856, V (Some [(s8, e78)]) (Some [(s8, e8)]) (Some [(s8, e80)]) ([(s8, v10)]) (Some [(s8, v12)]))
  ; (857, V (Some [(s8, e78)]) (Some [(s8, e9)]) (Some [(s8, e81)]) ([(s8, v10)]) (Some [(s8, v12)]))
  ; (858, V (Some [(s8, e76)]) (Some [(s8, e8)]) (Some [(s8, e80)]) ([(s8, v12)]) (Some [(s8, v12)]))
  ; (859, V (Some [(s8, e76)]) (Some [(s8, e9)]) (Some [(s8, e80)]) ([(s8, v12)]) (Some [(s8, v12)]))
  ; (860, V (Some [(s8, e78)]) (Some [(s8, e8)]) (Some [(s8, e80)]) ([(s8, v12)]) (Some [(s8, v12)]))
  ; (861, V (Some [(s8, e78)]) (Some [(s8, e9)]) (Some [(s8, e81)]) ([(s8, v12)]) (Some [(s8, v12)]))
  ; (862, V (Some [(s8, e76)]) (Some [(s8, e8)]) (Some [(s8, e80)]) ([(s8, v13)]) (Some [(s8, v12)]))
  ; (863, V (Some [(s8, e76)]) (Some [(s8, e9)]) (Some [(s8, e80)]) ([(s8, v13)]) (Some [(s8, v12)]))
  ; (864, V (Some [(s8, e78)]) (Some [(s8, e8)]) (Some [(s8, e80)]) ([(s8, v13)]) (Some [(s8, v12)]))
  ; (865, V (Some [(s8, e78)]) (Some [(s8, e9)]) (Some [(s8, e81)]) ([(s8, v13)]) (Some [(s8, v12)]))
  ; (866, V (Some [(s8, e76)]) (Some [(s8, e8)]) (Some [(s8, e80)]) ([(s8, v6)]) (Some [(s8, v12)]))
  ; (867, V (Some [(s8, e76)]) (Some [(s8, e9)]) (Some [(s8, e80)]) ([(s8, v6)]) (Some [(s8, v12)]))
  ; (868, V (Some [(s8, e78)]) (Some [(s8, e8)]) (Some [(s8, e80)]) ([(s8, v6)]) (Some [(s8, v12)]))
  ; (869, V (Some [(s8, e78)]) (Some [(s8, e9)]) (Some [(s8, e81)]) ([(s8, v6)]) (Some [(s8, v12)]))
  ; (870, V (Some [(s8, e76)]) (Some [(s8, e8)]) (Some [(s8, e80)]) ([]) (Some [(s8, v12)]))
  ; (871, V (Some [(s8, e76)]) (Some [(s8, e9)]) (Some [(s8, e80)]) ([]) (Some [(s8, v12)]))
  ; (872, V (Some [(s8, e78)]) (Some [(s8, e8)]) (Some [(s8, e80)]) ([]) (Some [(s8, v12)]))
  ; (873, V (Some [(s8, e78)]) (Some [(s8, e9)]) (Some [(s8, e81)]) ([]) (Some [(s8, v12)]))
  ; (874, V (Some [(s8, e21)]) (Some [(s8, e8)]) (Some [(s8, e82)]) ([(s8, v8)]) (Some [(s8, v12)]))
  ; (875, V (Some [(s8, e21)]) (Some [(s8, e9)]) (Some [(s8, e82)]) ([(s8, v8)]) (Some [(s8, v12)]))
  ; (876, V (Some [(s8, e23)]) (Some [(s8, e8)]) (Some [(s8, e82)]) ([(s8, v8)]) (Some [(s8, v12)]))
  ; (877, V (Some [(s8, e23)]) (Some [(s8, e9)]) (Some [(s8, e83)]) ([(s8, v8)]) (Some [(s8, v12)]))
  ; (878, V (Some [(s8, e21)]) (Some [(s8, e8)]) (Some [(s8, e82)]) ([(s8, v10)]) (Some [(s8, v12)]))
  ; (879, V (Some [(s8, e21)]) (Some [(s8, e9)]) (Some [(s8, e82)]) ([(s8, v10)]) (Some [(s8, v12)]))
  ; (880, V (Some [(s8, e23)]) (Some [(s8, e8)]) (Some [(s8, e82)]) ([(s8, v10)]) (Some [(s8, v12)]))
  ; (881, V (Some [(s8, e23)]) (Some [(s8, e9)]) (Some [(s8, e83)]) ([(s8, v10)]) (Some [(s8, v12)]))
  ; (882, V (Some [(s8, e21)]) (Some [(s8, e8)]) (Some [(s8, e82)]) ([(s8, v12)]) (Some [(s8, v12)]))
  ; (883, V (Some [(s8, e21)]) (Some [(s8, e9)]) (Some [(s8, e82)]) ([(s8, v12)]) (Some [(s8, v12)]))
  ; (884, V (Some [(s8, e23)]) (Some [(s8, e8)]) (Some [(s8, e82)]) ([(s8, v12)]) (Some [(s8, v12)]))
  ; (885, V (Some [(s8, e23)]) (Some [(s8, e9)]) (Some [(s8, e83)]) ([(s8, v12)]) (Some [(s8, v12)]))
  ; (886, V (Some [(s8, e21)]) (Some [(s8, e8)]) (Some [(s8, e82)]) ([(s8, v13)]) (Some [(s8, v12)]))
  ; (887, V (Some [(s8, e21)]) (Some [(s8, e9)]) (Some [(s8, e82)]) ([(s8, v13)]) (Some [(s8, v12)]))
  ; (888, V (Some [(s8, e23)]) (Some [(s8, e8)]) (Some [(s8, e82)]) ([(s8, v13)]) (Some [(s8, v12)]))
  ; (889, V (Some [(s8, e23)]) (Some [(s8, e9)]) (Some [(s8, e83)]) ([(s8, v13)]) (Some [(s8, v12)]))
  ; (890, V (Some [(s8, e21)]) (Some [(s8, e8)]) (Some [(s8, e82)]) ([(s8, v6)]) (Some [(s8, v12)]))
  ; (891, V (Some [(s8, e21)]) (Some [(s8, e9)]) (Some [(s8, e82)]) ([(s8, v6)]) (Some [(s8, v12)]))
  ; (892, V (Some [(s8, e23)]) (Some [(s8, e8)]) (Some [(s8, e82)]) ([(s8, v6)]) (Some [(s8, v12)]))
  ; (893, V (Some [(s8, e23)]) (Some [(s8, e9)]) (Some [(s8, e83)]) ([(s8, v6)]) (Some [(s8, v12)]))
  ; (894, V (Some [(s8, e21)]) (Some [(s8, e8)]) (Some [(s8, e82)]) ([]) (Some [(s8, v12)]))
  ; (895, V (Some [(s8, e21)]) (Some [(s8, e9)]) (Some [(s8, e82)]) ([]) (Some [(s8, v12)]))
  ; (896, V (Some [(s8, e23)]) (Some [(s8, e8)]) (Some [(s8, e82)]) ([]) (Some [(s8, v12)]))
  ; (897, V (Some [(s8, e23)]) (Some [(s8, e9)]) (Some [(s8, e83)]) ([]) (Some [(s8, v12)]))
  ; (898, V (Some [(s12, e84)]) (Some [(s12, e84)]) (Some [(s12, e84)]) ([(s12, v1)]) (Some [(s12, v1)]))
  ; (899, V (Some [(s12, e84)]) (Some [(s12, e85)]) (None) ([(s12, v1)]) (None))
  ; (900, V (Some [(s12, e85)]) (Some [(s12, e84)]) (None) ([(s12, v1)]) (None))
  ; (901, V (Some [(s12, e85)]) (Some [(s12, e85)]) (Some [(s12, e85)]) ([(s12, v1)]) (Some [(s12, v1)]))
  ; (902, V (Some [(s12, e84)]) (Some [(s12, e84)]) (Some [(s12, e84)]) ([(s12, v14)]) (Some [(s12, v14)]))
  ; (903, V (Some [(s12, e84)]) (Some [(s12, e85)]) (None) ([(s12, v14)]) (None))
  ; (904, V (Some [(s12, e85)]) (Some [(s12, e84)]) (None) ([(s12, v14)]) (None))
  ; (905, V (Some [(s12, e85)]) (Some [(s12, e85)]) (Some [(s12, e85)]) ([(s12, v14)]) (Some [(s12, v14)]))
  ; (922, V (Some [(s8, e76)]) (Some [(s8, e12)]) (Some [(s8, e86)]) ([(s8, v8)]) (Some [(s8, v8)]))
  ; (923, V (Some [(s8, e76)]) (Some [(s8, e13)]) (Some [(s8, e86)]) ([(s8, v8)]) (Some [(s8, v8)]))
  ; (924, V (Some [(s8, e78)]) (Some [(s8, e12)]) (Some [(s8, e86)]) ([(s8, v8)]) (Some [(s8, v8)]))
  ; (925, V (Some [(s8, e78)]) (Some [(s8, e13)]) (Some [(s8, e87)]) ([(s8, v8)]) (Some [(s8, v8)]))
  ; (926, V (Some [(s8, e76)]) (Some [(s8, e12)]) (Some [(s8, e86)]) ([(s8, v10)]) (Some [(s8, v19)]))
  ; (927, V (Some [(s8, e76)]) (Some [(s8, e13)]) (Some [(s8, e86)]) ([(s8, v10)]) (Some [(s8, v19)]))
  ; (928, V (Some [(s8, e78)]) (Some [(s8, e12)]) (Some [(s8, e86)]) ([(s8, v10)]) (Some [(s8, v19)]))
  ; (929, V (Some [(s8, e78)]) (Some [(s8, e13)]) (Some [(s8, e87)]) ([(s8, v10)]) (Some [(s8, v19)]))
  ; (930, V (Some [(s8, e76)]) (Some [(s8, e12)]) (Some [(s8, e86)]) ([(s8, v12)]) (Some [(s8, v12)]))
  ; (931, V (Some [(s8, e76)]) (Some [(s8, e13)]) (Some [(s8, e86)]) ([(s8, v12)]) (Some [(s8, v12)]))
  ; (932, V (Some [(s8, e78)]) (Some [(s8, e12)]) (Some [(s8, e86)]) ([(s8, v12)]) (Some [(s8, v12)]))
  ; (933, V (Some [(s8, e78)]) (Some [(s8, e13)]) (Some [(s8, e87)]) ([(s8, v12)]) (Some [(s8, v12)]))
  ; (934, V (Some [(s8, e76)]) (Some [(s8, e12)]) (Some [(s8, e86)]) ([(s8, v13)]) (Some [(s8, v13)]))
  ; (935, V (Some [(s8, e76)]) (Some [(s8, e13)]) (Some [(s8, e86)]) ([(s8, v13)]) (Some [(s8, v13)]))
  ; (936, V (Some [(s8, e78)]) (Some [(s8, e12)]) (Some [(s8, e86)]) ([(s8, v13)]) (Some [(s8, v13)]))
  ; (937, V (Some [(s8, e78)]) (Some [(s8, e13)]) (Some [(s8, e87)]) ([(s8, v13)]) (Some [(s8, v13)]))
  ; (938, V (Some [(s8, e76)]) (Some [(s8, e12)]) (Some [(s8, e86)]) ([(s8, v6)]) (Some [(s8, v8)]))
  ; (939, V (Some [(s8, e76)]) (Some [(s8, e13)]) (Some [(s8, e86)]) ([(s8, v6)]) (Some [(s8, v8)]))
  ; (940, V (Some [(s8, e78)]) (Some [(s8, e12)]) (Some [(s8, e86)]) ([(s8, v6)]) (Some [(s8, v8)]))
  ; (941, V (Some [(s8, e78)]) (Some [(s8, e13)]) (Some [(s8, e87)]) ([(s8, v6)]) (Some [(s8, v8)]))
  ; (942, V (Some [(s8, e76)]) (Some [(s8, e12)]) (Some [(s8, e86)]) ([]) (Some [(s8, v8)]))
  ; (943, V (Some [(s8, e76)]) (Some [(s8, e13)]) (Some [(s8, e86)]) ([]) (Some [(s8, v8)]))
  ; (944, V (Some [(s8, e78)]) (Some [(s8, e12)]) (Some [(s8, e86)]) ([]) (Some [(s8, v8)]))
  ; (945, V (Some [(s8, e78)]) (Some [(s8, e13)]) (Some [(s8, e87)]) ([]) (Some [(s8, v8)]))
  ; (946, V (Some [(s8, e76)]) (Some [(s8, e14)]) (Some [(s8, e88)]) ([(s8, v8)]) (Some [(s8, v12)]))
  ; (947, V (Some [(s8, e76)]) (Some [(s8, e15)]) (Some [(s8, e88)]) ([(s8, v8)]) (Some [(s8, v12)]))
  ; (948, V (Some [(s8, e78)]) (Some [(s8, e14)]) (Some [(s8, e88)]) ([(s8, v8)]) (Some [(s8, v12)]))
  ; (949, V (Some [(s8, e78)]) (Some [(s8, e15)]) (Some [(s8, e89)]) ([(s8, v8)]) (Some [(s8, v12)]))
  ; (950, V (Some [(s8, e76)]) (Some [(s8, e14)]) (Some [(s8, e88)]) ([(s8, v10)]) (Some [(s8, v20)]))
  ; (951, V (Some [(s8, e76)]) (Some [(s8, e15)]) (Some [(s8, e88)]) ([(s8, v10)]) (Some [(s8, v20)]))
  ; (952, V (Some [(s8, e78)]) (Some [(s8, e14)]) (Some [(s8, e88)]) ([(s8, v10)]) (Some [(s8, v20)]))
  ; (953, V (Some [(s8, e78)]) (Some [(s8, e15)]) (Some [(s8, e89)]) ([(s8, v10)]) (Some [(s8, v20)]))
  ; (954, V (Some [(s8, e76)]) (Some [(s8, e14)]) (Some [(s8, e88)]) ([(s8, v12)]) (Some [(s8, v12)]))
  ; (955, V (Some [(s8, e76)]) (Some [(s8, e15)]) (Some [(s8, e88)]) ([(s8, v12)]) (Some [(s8, v12)]))
  ; (956, V (Some [(s8, e78)]) (Some [(s8, e14)]) (Some [(s8, e88)]) ([(s8, v12)]) (Some [(s8, v12)]))
  ; (957, V (Some [(s8, e78)]) (Some [(s8, e15)]) (Some [(s8, e89)]) ([(s8, v12)]) (Some [(s8, v12)]))
  ; (958, V (Some [(s8, e76)]) (Some [(s8, e14)]) (Some [(s8, e88)]) ([(s8, v13)]) (Some [(s8, v21)]))
  ; (959, V (Some [(s8, e76)]) (Some [(s8, e15)]) (Some [(s8, e88)]) ([(s8, v13)]) (Some [(s8, v21)]))
  ; (960, V (Some [(s8, e78)]) (Some [(s8, e14)]) (Some [(s8, e88)]) ([(s8, v13)]) (Some [(s8, v21)]))
  ; (961, V (Some [(s8, e78)]) (Some [(s8, e15)]) (Some [(s8, e89)]) ([(s8, v13)]) (Some [(s8, v21)]))
  ; (962, V (Some [(s8, e76)]) (Some [(s8, e14)]) (Some [(s8, e88)]) ([(s8, v6)]) (Some [(s8, v12)]))
  ; (963, V (Some [(s8, e76)]) (Some [(s8, e15)]) (Some [(s8, e88)]) ([(s8, v6)]) (Some [(s8, v12)]))
  ; (964, V (Some [(s8, e78)]) (Some [(s8, e14)]) (Some [(s8, e88)]) ([(s8, v6)]) (Some [(s8, v12)]))
  ; (965, V (Some [(s8, e78)]) (Some [(s8, e15)]) (Some [(s8, e89)]) ([(s8, v6)]) (Some [(s8, v12)]))
  ; (966, V (Some [(s8, e76)]) (Some [(s8, e14)]) (Some [(s8, e88)]) ([]) (Some [(s8, v12)]))
  ; (967, V (Some [(s8, e76)]) (Some [(s8, e15)]) (Some [(s8, e88)]) ([]) (Some [(s8, v12)]))
  ; (968, V (Some [(s8, e78)]) (Some [(s8, e14)]) (Some [(s8, e88)]) ([]) (Some [(s8, v12)]))
  ; (969, V (Some [(s8, e78)]) (Some [(s8, e15)]) (Some [(s8, e89)]) ([]) (Some [(s8, v12)]))
  ; (970, V (Some [(s8, e21)]) (Some [(s8, e14)]) (Some [(s8, e90)]) ([(s8, v8)]) (Some [(s8, v12)]))
  ; (971, V (Some [(s8, e21)]) (Some [(s8, e15)]) (Some [(s8, e90)]) ([(s8, v8)]) (Some [(s8, v12)]))
  ; (972, V (Some [(s8, e23)]) (Some [(s8, e14)]) (Some [(s8, e90)]) ([(s8, v8)]) (Some [(s8, v12)]))
  ; (973, V (Some [(s8, e23)]) (Some [(s8, e15)]) (Some [(s8, e91)]) ([(s8, v8)]) (Some [(s8, v12)]))
  ; (974, V (Some [(s8, e21)]) (Some [(s8, e14)]) (Some [(s8, e90)]) ([(s8, v10)]) (Some [(s8, v20)]))
  ; (975, V (Some [(s8, e21)]) (Some [(s8, e15)]) (Some [(s8, e90)]) ([(s8, v10)]) (Some [(s8, v20)]))
  ; (976, V (Some [(s8, e23)]) (Some [(s8, e14)]) (Some [(s8, e90)]) ([(s8, v10)]) (Some [(s8, v20)]))
  ; (977, V (Some [(s8, e23)]) (Some [(s8, e15)]) (Some [(s8, e91)]) ([(s8, v10)]) (Some [(s8, v20)]))
  ; (978, V (Some [(s8, e21)]) (Some [(s8, e14)]) (Some [(s8, e90)]) ([(s8, v12)]) (Some [(s8, v12)]))
  ; (979, V (Some [(s8, e21)]) (Some [(s8, e15)]) (Some [(s8, e90)]) ([(s8, v12)]) (Some [(s8, v12)]))
  ; (980, V (Some [(s8, e23)]) (Some [(s8, e14)]) (Some [(s8, e90)]) ([(s8, v12)]) (Some [(s8, v12)]))
  ; (981, V (Some [(s8, e23)]) (Some [(s8, e15)]) (Some [(s8, e91)]) ([(s8, v12)]) (Some [(s8, v12)]))
  ; (982, V (Some [(s8, e21)]) (Some [(s8, e14)]) (Some [(s8, e90)]) ([(s8, v13)]) (Some [(s8, v21)]))
  ; (983, V (Some [(s8, e21)]) (Some [(s8, e15)]) (Some [(s8, e90)]) ([(s8, v13)]) (Some [(s8, v21)]))
  ; (984, V (Some [(s8, e23)]) (Some [(s8, e14)]) (Some [(s8, e90)]) ([(s8, v13)]) (Some [(s8, v21)]))
  ; (985, V (Some [(s8, e23)]) (Some [(s8, e15)]) (Some [(s8, e91)]) ([(s8, v13)]) (Some [(s8, v21)]))
  ; (986, V (Some [(s8, e21)]) (Some [(s8, e14)]) (Some [(s8, e90)]) ([(s8, v6)]) (Some [(s8, v12)]))
  ; (987, V (Some [(s8, e21)]) (Some [(s8, e15)]) (Some [(s8, e90)]) ([(s8, v6)]) (Some [(s8, v12)]))
  ; (988, V (Some [(s8, e23)]) (Some [(s8, e14)]) (Some [(s8, e90)]) ([(s8, v6)]) (Some [(s8, v12)]))
  ; (989, V (Some [(s8, e23)]) (Some [(s8, e15)]) (Some [(s8, e91)]) ([(s8, v6)]) (Some [(s8, v12)]))
  ; (990, V (Some [(s8, e21)]) (Some [(s8, e14)]) (Some [(s8, e90)]) ([]) (Some [(s8, v12)]))
  ; (991, V (Some [(s8, e21)]) (Some [(s8, e15)]) (Some [(s8, e90)]) ([]) (Some [(s8, v12)]))
  ; (992, V (Some [(s8, e23)]) (Some [(s8, e14)]) (Some [(s8, e90)]) ([]) (Some [(s8, v12)]))
  ; (993, V (Some [(s8, e23)]) (Some [(s8, e15)]) (Some [(s8, e91)]) ([]) (Some [(s8, v12)]))
  ; (994, V (Some [(s0, e16)]) (Some [(s0, e16)]) (Some [(s0, e16)]) ([(s0, v0)]) (Some [(s0, v0)]))
  ; (995, V (Some [(s0, e16)]) (Some [(s0, e18)]) (Some [(s0, e16)]) ([(s0, v0)]) (Some [(s0, v0)]))
  ; (996, V (Some [(s0, e18)]) (Some [(s0, e16)]) (Some [(s0, e16)]) ([(s0, v0)]) (Some [(s0, v0)]))
  ; (997, V (Some [(s0, e18)]) (Some [(s0, e18)]) (Some [(s0, e18)]) ([(s0, v0)]) (Some [(s0, v0)]))
  ; (998, V (Some [(s0, e16)]) (Some [(s0, e16)]) (Some [(s0, e16)]) ([(s0, v2)]) (Some [(s0, v2)]))
  ; (999, V (Some [(s0, e16)]) (Some [(s0, e18)]) (Some [(s0, e16)]) ([(s0, v2)]) (Some [(s0, v2)]))
  ; (1000, V (Some [(s0, e18)]) (Some [(s0, e16)]) (Some [(s0, e16)]) ([(s0, v2)]) (Some [(s0, v2)]))
  ; (1001, V (Some [(s0, e18)]) (Some [(s0, e18)]) (Some [(s0, e18)]) ([(s0, v2)]) (Some [(s0, v2)]))
  ; (1002, V (Some [(s0, e16)]) (Some [(s0, e16)]) (Some [(s0, e16)]) ([]) (Some [(s0, v0)]))
  ; (1003, V (Some [(s0, e16)]) (Some [(s0, e18)]) (Some [(s0, e16)]) ([]) (Some [(s0, v0)]))
  ; (1004, V (Some [(s0, e18)]) (Some [(s0, e16)]) (Some [(s0, e16)]) ([]) (Some [(s0, v0)]))
  ; (1005, V (Some [(s0, e18)]) (Some [(s0, e18)]) (Some [(s0, e18)]) ([]) (Some [(s0, v0)]))
  ; (1006, V (Some [(s8, e76)]) (Some [(s8, e21)]) (None) ([(s8, v8)]) (None))
  ; (1007, V (Some [(s8, e76)]) (Some [(s8, e23)]) (None) ([(s8, v8)]) (None))
  ; (1008, V (Some [(s8, e78)]) (Some [(s8, e21)]) (None) ([(s8, v8)]) (None))
  ; (1009, V (Some [(s8, e78)]) (Some [(s8, e23)]) (None) ([(s8, v8)]) (None))
  ; (1010, V (Some [(s8, e76)]) (Some [(s8, e21)]) (None) ([(s8, v10)]) (None))
  ; (1011, V (Some [(s8, e76)]) (Some [(s8, e23)]) (None) ([(s8, v10)]) (None))
  ; (1012, V (Some [(s8, e78)]) (Some [(s8, e21)]) (None) ([(s8, v10)]) (None))
  ; (1013, V (Some [(s8, e78)]) (Some [(s8, e23)]) (None) ([(s8, v10)]) (None))
  ; (1014, V (Some [(s8, e76)]) (Some [(s8, e21)]) (None) ([(s8, v12)]) (None))
  ; (1015, V (Some [(s8, e76)]) (Some [(s8, e23)]) (None) ([(s8, v12)]) (None))
  ; (1016, V (Some [(s8, e78)]) (Some [(s8, e21)]) (None) ([(s8, v12)]) (None))
  ; (1017, V (Some [(s8, e78)]) (Some [(s8, e23)]) (None) ([(s8, v12)]) (None))
  ; (1018, V (Some [(s8, e76)]) (Some [(s8, e21)]) (None) ([(s8, v13)]) (None))
  ; (1019, V (Some [(s8, e76)]) (Some [(s8, e23)]) (None) ([(s8, v13)]) (None))
  ; (1020, V (Some [(s8, e78)]) (Some [(s8, e21)]) (None) ([(s8, v13)]) (None))
  ; (1021, V (Some [(s8, e78)]) (Some [(s8, e23)]) (None) ([(s8, v13)]) (None))
  ; (1022, V (Some [(s8, e76)]) (Some [(s8, e21)]) (None) ([(s8, v6)]) (None))
  ; (1023, V (Some [(s8, e76)]) (Some [(s8, e23)]) (None) ([(s8, v6)]) (None))
  ; (1024, V (Some [(s8, e78)]) (Some [(s8, e21)]) (None) ([(s8, v6)]) (None))
  ; (1025, V (Some [(s8, e78)]) (Some [(s8, e23)]) (None) ([(s8, v6)]) (None))
  ; (1026, V (Some [(s8, e76)]) (Some [(s8, e21)]) (None) ([]) (None))
  ; (1027, V (Some [(s8, e76)]) (Some [(s8, e23)]) (None) ([]) (None))
  ; (1028, V (Some [(s8, e78)]) (Some [(s8, e21)]) (None) ([]) (None))
  ; (1029, V (Some [(s8, e78)]) (Some [(s8, e23)]) (None) ([]) (None))
  ; (1030, V (Some [(s8, e76)]) (Some [(s8, e25)]) (None) ([(s8, v8)]) (None))
  ; (1031, V (Some [(s8, e76)]) (Some [(s8, e27)]) (None) ([(s8, v8)]) (None))
  ; (1032, V (Some [(s8, e78)]) (Some [(s8, e25)]) (None) ([(s8, v8)]) (None))
  ; (1033, V (Some [(s8, e78)]) (Some [(s8, e27)]) (None) ([(s8, v8)]) (None))
  ; (1034, V (Some [(s8, e76)]) (Some [(s8, e25)]) (None) ([(s8, v10)]) (None))
  ; (1035, V (Some [(s8, e76)]) (Some [(s8, e27)]) (None) ([(s8, v10)]) (None))
  ; (1036, V (Some [(s8, e78)]) (Some [(s8, e25)]) (None) ([(s8, v10)]) (None))
  ; (1037, V (Some [(s8, e78)]) (Some [(s8, e27)]) (None) ([(s8, v10)]) (None))
  ; (1038, V (Some [(s8, e76)]) (Some [(s8, e25)]) (None) ([(s8, v12)]) (None))
  ; (1039, V (Some [(s8, e76)]) (Some [(s8, e27)]) (None) ([(s8, v12)]) (None))
  ; (1040, V (Some [(s8, e78)]) (Some [(s8, e25)]) (None) ([(s8, v12)]) (None))
  ; (1041, V (Some [(s8, e78)]) (Some [(s8, e27)]) (None) ([(s8, v12)]) (None))
  ; (1042, V (Some [(s8, e76)]) (Some [(s8, e25)]) (None) ([(s8, v13)]) (None))
  ; (1043, V (Some [(s8, e76)]) (Some [(s8, e27)]) (None) ([(s8, v13)]) (None))
  ; (1044, V (Some [(s8, e78)]) (Some [(s8, e25)]) (None) ([(s8, v13)]) (None))
  ; (1045, V (Some [(s8, e78)]) (Some [(s8, e27)]) (None) ([(s8, v13)]) (None))
  ; (1046, V (Some [(s8, e76)]) (Some [(s8, e25)]) (None) ([(s8, v6)]) (None))
  ; (1047, V (Some [(s8, e76)]) (Some [(s8, e27)]) (None) ([(s8, v6)]) (None))
  ; (1048, V (Some [(s8, e78)]) (Some [(s8, e25)]) (None) ([(s8, v6)]) (None))
  ; (1049, V (Some [(s8, e78)]) (Some [(s8, e27)]) (None) ([(s8, v6)]) (None))
  ; (1050, V (Some [(s8, e76)]) (Some [(s8, e25)]) (None) ([]) (None))
  ; (1051, V (Some [(s8, e76)]) (Some [(s8, e27)]) (None) ([]) (None))
  ; (1052, V (Some [(s8, e78)]) (Some [(s8, e25)]) (None) ([]) (None))
  ; (1053, V (Some [(s8, e78)]) (Some [(s8, e27)]) (None) ([]) (None))
  ; (1054, V (Some [(s8, e21)]) (Some [(s8, e25)]) (None) ([(s8, v8)]) (None))
  ; (1055, V (Some [(s8, e21)]) (Some [(s8, e27)]) (None) ([(s8, v8)]) (None))
  ; (1056, V (Some [(s8, e23)]) (Some [(s8, e25)]) (None) ([(s8, v8)]) (None)) ].
Definition vectors5 : list (nat * vector) :=
  [ (1057, V (Some [(s8, e23)]) (Some [(s8, e27)]) (None) ([(s8, v8)]) (None))
  ; (1058, V (Some [(s8, e21)]) (Some [(s8, e25)]) (None) ([(s8, v10)]) (None))
  ; (1059, V (Some [(s8, e21)]) (Some [(s8, e27)]) (None) ([(s8, v10)]) (None))
  ; (1060, V (Some [(s8, e23)]) (Some [(s8, e25)]) (None) ([(s8, v10)]) (None))
  ; (1061, V (Some [(s8, e23)]) (Some [(s8, e27)]) (None) ([(s8, v10)]) (None))
  ; (1062, V (Some [(s8, e21)]) (Some [(s8, e25)]) (None) ([(s8, v12)]) (None))
  ; (1063, V (Some [(s8, e21)]) (Some [(s8, e27)]) (None) ([(s8, v12)]) (None))
  ; (1064, V (Some [(s8, e23)]) (Some [(s8, e25)]) (None) ([(s8, v12)]) (None))
  ; (1065, V (Some [(s8, e23)]) (Some [(s8, e27)]) (None) ([(s8, v12)]) (None))
  ; (1066, V (Some [(s8, e21)]) (Some [(s8, e25)]) (None) ([(s8, v13)]) (None))
  ; (1067, V (Some [(s8, e21)]) (Some [(s8, e27)]) (None) ([(s8, v13)]) (None))
  ; (1068, V (Some [(s8, e23)]) (Some [(s8, e25)]) (None) ([(s8, v13)]) (None))
  ; (1069, V (Some [(s8, e23)]) (Some [(s8, e27)]) (None) ([(s8, v13)]) (None))
  ; (1070, V (Some [(s8, e21)]) (Some [(s8, e25)]) (None) ([(s8, v6)]) (None))
  ; (1071, V (Some [(s8, e21)]) (Some [(s8, e27)]) (None) ([(s8, v6)]) (None))
  ; (1072, V (Some [(s8, e23)]) (Some [(s8, e25)]) (None) ([(s8, v6)]) (None))
  ; (1073, V (Some [(s8, e23)]) (Some [(s8, e27)]) (None) ([(s8, v6)]) (None))
  ; (1074, V (Some [(s8, e21)]) (Some [(s8, e25)]) (None) ([]) (None))
  ; (1075, V (Some [(s8, e21)]) (Some [(s8, e27)]) (None) ([]) (None))
  ; (1076, V (Some [(s8, e23)]) (Some [(s8, e25)]) (None) ([]) (None))
  ; (1077, V (Some [(s8, e23)]) (Some [(s8, e27)]) (None) ([]) (None))
  ; (1102, V (Some [(s0, e16)]) (Some [(s0, e31)]) (Some [(s0, e92)]) ([(s0, v0)]) (Some [(s0, v0)]))
  ; (1103, V (Some [(s0, e16)]) (Some [(s0, e33)]) (Some [(s0, e92)]) ([(s0, v0)]) (Some [(s0, v0)]))
  ; (1104, V (Some [(s0, e18)]) (Some [(s0, e31)]) (Some [(s0, e92)]) ([(s0, v0)]) (Some [(s0, v0)]))
  ; (1105, V (Some [(s0, e18)]) (Some [(s0, e33)]) (Some [(s0, e93)]) ([(s0, v0)]) (Some [(s0, v0)]))
  ; (1106, V (Some [(s0, e16)]) (Some [(s0, e31)]) (Some [(s0, e92)]) ([(s0, v2)]) (None))
  ; (1107, V (Some [(s0, e16)]) (Some [(s0, e33)]) (Some [(s0, e92)]) ([(s0, v2)]) (None))
  ; (1108, V (Some [(s0, e18)]) (Some [(s0, e31)]) (Some [(s0, e92)]) ([(s0, v2)]) (None))
  ; (1109, V (Some [(s0, e18)]) (Some [(s0, e33)]) (Some [(s0, e93)]) ([(s0, v2)]) (None))
  ; (1110, V (Some [(s0, e16)]) (Some [(s0, e31)]) (Some [(s0, e92)]) ([]) (Some [(s0, v0)]))
  ; (1111, V (Some [(s0, e16)]) (Some [(s0, e33)]) (Some [(s0, e92)]) ([]) (Some [(s0, v0)]))
  ; (1112, V (Some [(s0, e18)]) (Some [(s0, e31)]) (Some [(s0, e92)]) ([]) (Some [(s0, v0)]))
  ; (1113, V (Some [(s0, e18)]) (Some [(s0, e33)]) (Some [(s0, e93)]) ([]) (Some [(s0, v0)]))
  ; (1114, V (Some [(s8, e76)]) (Some [(s8, e36)]) (Some [(s8, e94)]) ([(s8, v8)]) (Some [(s8, v8)]))
  ; (1115, V (Some [(s8, e76)]) (Some [(s8, e38)]) (Some [(s8, e94)]) ([(s8, v8)]) (Some [(s8, v8)]))
  ; (1116, V (Some [(s8, e78)]) (Some [(s8, e36)]) (Some [(s8, e94)]) ([(s8, v8)]) (Some [(s8, v8)]))
  ; (1117, V (Some [(s8, e78)]) (Some [(s8, e38)]) (Some [(s8, e95)]) ([(s8, v8)]) (Some [(s8, v8)]))
  ; (1118, V (Some [(s8, e76)]) (Some [(s8, e36)]) (Some [(s8, e94)]) ([(s8, v10)]) (Some [(s8, v6)]))
  ; (1119, V (Some [(s8, e76)]) (Some [(s8, e38)]) (Some [(s8, e94)]) ([(s8, v10)]) (Some [(s8, v6)]))
  ; (1120, V (Some [(s8, e78)]) (Some [(s8, e36)]) (Some [(s8, e94)]) ([(s8, v10)]) (Some [(s8, v6)]))
  ; (1121, V (Some [(s8, e78)]) (Some [(s8, e38)]) (Some [(s8, e95)]) ([(s8, v10)]) (Some [(s8, v6)]))
  ; (1122, V (Some [(s8, e76)]) (Some [(s8, e36)]) (Some [(s8, e94)]) ([(s8, v12)]) (Some [(s8, v8)]))
  ; (1123, V (Some [(s8, e76)]) (Some [(s8, e38)]) (Some [(s8, e94)]) ([(s8, v12)]) (Some [(s8, v8)]))
  ; (1124, V (Some [(s8, e78)]) (Some [(s8, e36)]) (Some [(s8, e94)]) ([(s8, v12)]) (Some [(s8, v8)]))
  ; (1125, V (Some [(s8, e78)]) (Some [(s8, e38)]) (Some [(s8, e95)]) ([(s8, v12)]) (Some [(s8, v8)]))
  ; (1126, V (Some [(s8, e76)]) (Some [(s8, e36)]) (Some [(s8, e94)]) ([(s8, v13)]) (Some [(s8, v8)]))
  ; (1127, V (Some [(s8, e76)]) (Some [(s8, e38)]) (Some [(s8, e94)]) ([(s8, v13)]) (Some [(s8, v8)]))
  ; (1128, V (Some [(s8, e78)]) (Some [(s8, e36)]) (Some [(s8, e94)]) ([(s8, v13)]) (Some [(s8, v8)]))
  ; (1129, V (Some [(s8, e78)]) (Some [(s8, e38)]) (Some [(s8, e95)]) ([(s8, v13)]) (Some [(s8, v8)]))
  ; (1130, V (Some [(s8, e76)]) (Some [(s8, e36)]) (Some [(s8, e94)]) ([(s8, v6)]) (Some [(s8, v6)]))
  ; (1131, V (Some [(s8, e76)]) (Some [(s8, e38)]) (Some [(s8, e94)]) ([(s8, v6)]) (Some [(s8, v6)]))
  ; (1132, V (Some [(s8, e78)]) (Some [(s8, e36)]) (Some [(s8, e94)]) ([(s8, v6)]) (Some [(s8, v6)]))
  ; (1133, V (Some [(s8, e78)]) (Some [(s8, e38)]) (Some [(s8, e95)]) ([(s8, v6)]) (Some [(s8, v6)]))
  ; (1134, V (Some [(s8, e76)]) (Some [(s8, e36)]) (Some [(s8, e94)]) ([]) (Some [(s8, v6)]))
  ; (1135, V (Some [(s8, e76)]) (Some [(s8, e38)]) (Some [(s8, e94)]) ([]) (Some [(s8, v6)]))
  ; (1136, V (Some [(s8, e78)]) (Some [(s8, e36)]) (Some [(s8, e94)]) ([]) (Some [(s8, v6)]))
  ; (1137, V (Some [(s8, e78)]) (Some [(s8, e38)]) (Some [(s8, e95)]) ([]) (Some [(s8, v6)]))
  ; (1138, V (Some [(s8, e76)]) (Some [(s8, e40)]) (Some [(s8, e96)]) ([(s8, v8)]) (Some [(s8, v8)]))
  ; (1139, V (Some [(s8, e76)]) (Some [(s8, e42)]) (Some [(s8, e96)]) ([(s8, v8)]) (Some [(s8, v8)]))
  ; (1140, V (Some [(s8, e78)]) (Some [(s8, e40)]) (Some [(s8, e96)]) ([(s8, v8)]) (Some [(s8, v8)]))
  ; (1141, V (Some [(s8, e78)]) (Some [(s8, e42)]) (Some [(s8, e97)]) ([(s8, v8)]) (Some [(s8, v8)]))
  ; (1142, V (Some [(s8, e76)]) (Some [(s8, e40)]) (Some [(s8, e96)]) ([(s8, v10)]) (Some [(s8, v6)]))
  ; (1143, V (Some [(s8, e76)]) (Some [(s8, e42)]) (Some [(s8, e96)]) ([(s8, v10)]) (Some [(s8, v6)]))
  ; (1144, V (Some [(s8, e78)]) (Some [(s8, e40)]) (Some [(s8, e96)]) ([(s8, v10)]) (Some [(s8, v6)]))
  ; (1145, V (Some [(s8, e78)]) (Some [(s8, e42)]) (Some [(s8, e97)]) ([(s8, v10)]) (Some [(s8, v6)]))
  ; (1146, V (Some [(s8, e76)]) (Some [(s8, e40)]) (Some [(s8, e96)]) ([(s8, v12)]) (Some [(s8, v12)]))
  ; (1147, V (Some [(s8, e76)]) (Some [(s8, e42)]) (Some [(s8, e96)]) ([(s8, v12)]) (Some [(s8, v12)]))
  ; (1148, V (Some [(s8, e78)]) (Some [(s8, e40)]) (Some [(s8, e96)]) ([(s8, v12)]) (Some [(s8, v12)]))
  ; (1149, V (Some [(s8, e78)]) (Some [(s8, e42)]) (Some [(s8, e97)]) ([(s8, v12)]) (Some [(s8, v12)]))
  ; (1150, V (Some [(s8, e76)]) (Some [(s8, e40)]) (Some [(s8, e96)]) ([(s8, v13)]) (Some [(s8, v8)]))
  ; (1151, V (Some [(s8, e76)]) (Some [(s8, e42)]) (Some [(s8, e96)]) ([(s8, v13)]) (Some [(s8, v8)]))
  ; (1152, V (Some [(s8, e78)]) (Some [(s8, e40)]) (Some [(s8, e96)]) ([(s8, v13)]) (Some [(s8, v8)]))
  ; (1153, V (Some [(s8, e78)]) (Some [(s8, e42)]) (Some [(s8, e97)]) ([(s8, v13)]) (Some [(s8, v8)]))
  ; (1154, V (Some [(s8, e76)]) (Some [(s8, e40)]) (Some [(s8, e96)]) ([(s8, v6)]) (Some [(s8, v6)]))
  ; (1155, V (Some [(s8, e76)]) (Some [(s8, e42)]) (Some [(s8, e96)]) ([(s8, v6)]) (Some [(s8, v6)]))
  ; (1156, V (Some [(s8, e78)]) (Some [(s8, e40)]) (Some [(s8, e96)]) ([(s8, v6)]) (Some [(s8, v6)]))
  ; (1157, V (Some [(s8, e78)]) (Some [(s8, e42)]) (Some [(s8, e97)]) ([(s8, v6)]) (Some [(s8, v6)]))
  ; (1158, V (Some [(s8, e76)]) (Some [(s8, e40)]) (Some [(s8, e96)]) ([]) (Some [(s8, v6)]))
  ; (1159, V (Some [(s8, e76)]) (Some [(s8, e42)]) (Some [(s8, e96)]) ([]) (Some [(s8, v6)]))
  ; (1160, V (Some [(s8, e78)]) (Some [(s8, e40)]) (Some [(s8, e96)]) ([]) (Some [(s8, v6)]))
  ; (1161, V (Some [(s8, e78)]) (Some [(s8, e42)]) (Some [(s8, e97)]) ([]) (Some [(s8, v6)]))
  ; (1162, V (Some [(s8, e21)]) (Some [(s8, e40)]) (Some [(s8, e98)]) ([(s8, v8)]) (Some [(s8, v8)]))
  ; (1163, V (Some [(s8, e21)]) (Some [(s8, e42)]) (Some [(s8, e98)]) ([(s8, v8)]) (Some [(s8, v8)]))
  ; (1164, V (Some [(s8, e23)]) (Some [(s8, e40)]) (Some [(s8, e98)]) ([(s8, v8)]) (Some [(s8, v8)]))
  ; (1165, V (Some [(s8, e23)]) (Some [(s8, e42)]) (Some [(s8, e99)]) ([(s8, v8)]) (Some [(s8, v8)]))
  ; (1166, V (Some [(s8, e21)]) (Some [(s8, e40)]) (Some [(s8, e98)]) ([(s8, v10)]) (Some [(s8, v6)]))
  ; (1167, V (Some [(s8, e21)]) (Some [(s8, e42)]) (Some [(s8, e98)]) ([(s8, v10)]) (Some [(s8, v6)]))
  ; (1168, V (Some [(s8, e23)]) (Some [(s8, e40)]) (Some [(s8, e98)]) ([(s8, v10)]) (Some [(s8, v6)]))
  ; (1169, V (Some [(s8, e23)]) (Some [(s8, e42)]) (Some [(s8, e99)]) ([(s8, v10)]) (Some [(s8, v6)]))
  ; (1170, V (Some [(s8, e21)]) (Some [(s8, e40)]) (Some [(s8, e98)]) ([(s8, v12)]) (Some [(s8, v12)]))
  ; (1171, V (Some [(s8, e21)]) (Some [(s8, e42)]) (Some [(s8, e98)]) ([(s8, v12)]) (Some [(s8, v12)]))
  ; (1172, V (Some [(s8, e23)]) (Some [(s8, e40)]) (Some [(s8, e98)]) ([(s8, v12)]) (Some [(s8, v12)]))
  ; (1173, V (Some [(s8, e23)]) (Some [(s8, e42)]) (Some [(s8, e99)]) ([(s8, v12)]) (Some [(s8, v12)]))
  ; (1174, V (Some [(s8, e21)]) (Some [(s8, e40)]) (Some [(s8, e98)]) ([(s8, v13)]) (Some [(s8, v8)]))
  ; (1175, V (Some [(s8, e21)]) (Some [(s8, e42)]) (Some [(s8, e98)]) ([(s8, v13)]) (Some [(s8, v8)]))
  ; (1176, V (Some [(s8, e23)]) (Some [(s8, e40)]) (Some [(s8, e98)]) ([(s8, v13)]) (Some [(s8, v8)]))
  ; (1177, V (Some [(s8, e23)]) (Some [(s8, e42)]) (Some [(s8, e99)]) ([(s8, v13)]) (Some [(s8, v8)]))
  ; (1178, V (Some [(s8, e21)]) (Some [(s8, e40)]) (Some [(s8, e98)]) ([(s8, v6)]) (Some [(s8, v6)]))
  ; (1179, V (Some [(s8, e21)]) (Some [(s8, e42)]) (Some [(s8, e98)]) ([(s8, v6)]) (Some [(s8, v6)]))
  ; (1180, V (Some [(s8, e23)]) (Some [(s8, e40)]) (Some [(s8, e98)]) ([(s8, v6)]) (Some [(s8, v6)]))
  ; (1181, V (Some [(s8, e23)]) (Some [(s8, e42)]) (Some [(s8, e99)]) ([(s8, v6)]) (Some [(s8, v6)]))
  ; (1182, V (Some [(s8, e21)]) (Some [(s8, e40)]) (Some [(s8, e98)]) ([]) (Some [(s8, v8)]))
  ; (1183, V (Some [(s8, e21)]) (Some [(s8, e42)]) (Some [(s8, e98)]) ([]) (Some [(s8, v8)]))
  ; (1184, V (Some [(s8, e23)]) (Some [(s8, e40)]) (Some [(s8, e98)]) ([]) (Some [(s8, v8)]))
  ; (1185, V (Some [(s8, e23)]) (Some [(s8, e42)]) (Some [(s8, e99)]) ([]) (Some [(s8, v8)]))
  ; (1186, V (Some [(s8, e76)]) (Some [(s8, e46)]) (Some [(s8, e100)]) ([(s8, v8)]) (Some [(s8, v8)]))
  ; (1187, V (Some [(s8, e76)]) (Some [(s8, e47)]) (Some [(s8, e100)]) ([(s8, v8)]) (Some [(s8, v8)]))
  ; (1188, V (Some [(s8, e78)]) (Some [(s8, e46)]) (Some [(s8, e100)]) ([(s8, v8)]) (Some [(s8, v8)]))
  ; (1189, V (Some [(s8, e78)]) (Some [(s8, e47)]) (Some [(s8, e101)]) ([(s8, v8)]) (Some [(s8, v8)]))
  ; (1190, V (Some [(s8, e76)]) (Some [(s8, e46)]) (Some [(s8, e100)]) ([(s8, v10)]) (None))
  ; (1191, V (Some [(s8, e76)]) (Some [(s8, e47)]) (Some [(s8, e100)]) ([(s8, v10)]) (None))
  ; (1192, V (Some [(s8, e78)]) (Some [(s8, e46)]) (Some [(s8, e100)]) ([(s8, v10)]) (None))
  ; (1193, V (Some [(s8, e78)]) (Some [(s8, e47)]) (Some [(s8, e101)]) ([(s8, v10)]) (None))
  ; (1194, V (Some [(s8, e76)]) (Some [(s8, e46)]) (Some [(s8, e100)]) ([(s8, v12)]) (Some [(s8, v12)]))
  ; (1195, V (Some [(s8, e76)]) (Some [(s8, e47)]) (Some [(s8, e100)]) ([(s8, v12)]) (Some [(s8, v12)]))
  ; (1196, V (Some [(s8, e78)]) (Some [(s8, e46)]) (Some [(s8, e100)]) ([(s8, v12)]) (Some [(s8, v12)]))
  ; (1197, V (Some [(s8, e78)]) (Some [(s8, e47)]) (Some [(s8, e101)]) ([(s8, v12)]) (Some [(s8, v12)]))
  ; (1198, V (Some [(s8, e76)]) (Some [(s8, e46)]) (Some [(s8, e100)]) ([(s8, v13)]) (Some [(s8, v13)]))
  ; (1199, V (Some [(s8, e76)]) (Some [(s8, e47)]) (Some [(s8, e100)]) ([(s8, v13)]) (Some [(s8, v13)]))
  ; (1200, V (Some [(s8, e78)]) (Some [(s8, e46)]) (Some [(s8, e100)]) ([(s8, v13)]) (Some [(s8, v13)]))
  ; (1201, V (Some [(s8, e78)]) (Some [(s8, e47)]) (Some [(s8, e101)]) ([(s8, v13)]) (Some [(s8, v13)]))
  ; (1202, V (Some [(s8, e76)]) (Some [(s8, e46)]) (Some [(s8, e100)]) ([(s8, v6)]) (None))
  ; (1203, V (Some [(s8, e76)]) (Some [(s8, e47)]) (Some [(s8, e100)]) ([(s8, v6)]) (None))
  ; (1204, V (Some [(s8, e78)]) (Some [(s8, e46)]) (Some [(s8, e100)]) ([(s8, v6)]) (None))
  ; (1205, V (Some [(s8, e78)]) (Some [(s8, e47)]) (Some [(s8, e101)]) ([(s8, v6)]) (None))
  ; (1206, V (Some [(s8, e76)]) (Some [(s8, e46)]) (Some [(s8, e100)]) ([]) (None))
  ; (1207, V (Some [(s8, e76)]) (Some [(s8, e47)]) (Some [(s8, e100)]) ([]) (None))
  ; (1208, V (Some [(s8, e78)]) (Some [(s8, e46)]) (Some [(s8, e100)]) ([]) (None))
  ; (1209, V (Some [(s8, e78)]) (Some [(s8, e47)]) (Some [(s8, e101)]) ([]) (None))
  ; (1210, V (Some [(s8, e76)]) (Some [(s8, e48)]) (Some [(s8, e102)]) ([(s8, v8)]) (None))
  ; (1211, V (Some [(s8, e76)]) (Some [(s8, e49)]) (Some [(s8, e102)]) ([(s8, v8)]) (None))
  ; (1212, V (Some [(s8, e78)]) (Some [(s8, e48)]) (Some [(s8, e102)]) ([(s8, v8)]) (None))
  ; (1213, V (Some [(s8, e78)]) (Some [(s8, e49)]) (Some [(s8, e103)]) ([(s8, v8)]) (None))
  ; (1214, V (Some [(s8, e76)]) (Some [(s8, e48)]) (Some [(s8, e102)]) ([(s8, v10)]) (None))
  ; (1215, V (Some [(s8, e76)]) (Some [(s8, e49)]) (Some [(s8, e102)]) ([(s8, v10)]) (None))
  ; (1216, V (Some [(s8, e78)]) (Some [(s8, e48)]) (Some [(s8, e102)]) ([(s8, v10)]) (None))
  ; (1217, V (Some [(s8, e78)]) (Some [(s8, e49)]) (Some [(s8, e103)]) ([(s8, v10)]) (None))
  ; (1218, V (Some [(s8, e76)]) (Some [(s8, e48)]) (Some [(s8, e102)]) ([(s8, v12)]) (Some [(s8, v12)]))
  ; (1219, V (Some [(s8, e76)]) (Some [(s8, e49)]) (Some [(s8, e102)]) ([(s8, v12)]) (Some [(s8, v12)]))
  ; (1220, V (Some [(s8, e78)]) (Some [(s8, e48)]) (Some [(s8, e102)]) ([(s8, v12)]) (Some [(s8, v12)]))
  ; (1221, V (Some [(s8, e78)]) (Some [(s8, e49)]) (Some [(s8, e103)]) ([(s8, v12)]) (Some [(s8, v12)]))
  ; (1222, V (Some [(s8, e76)]) (Some [(s8, e48)]) (Some [(s8, e102)]) ([(s8, v13)]) (None))
  ; (1223, V (Some [(s8, e76)]) (Some [(s8, e49)]) (Some [(s8, e102)]) ([(s8, v13)]) (None))
  ; (1224, V (Some [(s8, e78)]) (Some [(s8, e48)]) (Some [(s8, e102)]) ([(s8, v13)]) (None))
  ; (1225, V (Some [(s8, e78)]) (Some [(s8, e49)]) (Some [(s8, e103)]) ([(s8, v13)]) (None))
  ; (1226, V (Some [(s8, e76)]) (Some [(s8, e48)]) (Some [(s8, e102)]) ([(s8, v6)]) (None))
  ; (1227, V (Some [(s8, e76)]) (Some [(s8, e49)]) (Some [(s8, e102)]) ([(s8, v6)]) (None))
  ; (1228, V (Some [(s8, e78)]) (Some [(s8, e48)]) (Some [(s8, e102)]) ([(s8, v6)]) (None))
  ; (1229, V (Some [(s8, e78)]) (Some [(s8, e49)]) (Some [(s8, e103)]) ([(s8, v6)]) (None))
  ; (1230, V (Some [(s8, e76)]) (Some [(s8, e48)]) (Some [(s8, e102)]) ([]) (None))
  ; (1231, V (Some [(s8, e76)]) (Some [(s8, e49)]) (Some [(s8, e102)]) ([]) (None))
  ; (1232, V (Some [(s8, e78)]) (Some [(s8, e48)]) (Some [(s8, e102)]) ([]) (None))
  ; (1233, V (Some [(s8, e78)]) (Some [(s8, e49)]) (Some [(s8, e103)]) ([]) (None))
  ; (1234, V (Some [(s8, e21)]) (Some [(s8, e48)]) (Some [(s8, e104)]) ([(s8, v8)]) (None))
  ; (1235, V (Some [(s8, e21)]) (Some [(s8, e49)]) (Some [(s8, e104)]) ([(s8, v8)]) (None))
  ; (1236, V (Some [(s8, e23)]) (Some [(s8, e48)]) (Some [(s8, e104)]) ([(s8, v8)]) (None))
  ; (1237, V (Some [(s8, e23)]) (Some [(s8, e49)]) (Some [(s8, e105)]) ([(s8, v8)]) (None))
  ; (1238, V (Some [(s8, e21)]) (Some [(s8, e48)]) (Some [(s8, e104)]) ([(s8, v10)]) (None))
  ; (1239, V (Some [(s8, e21)]) (Some [(s8, e49)]) (Some [(s8, e104)]) ([(s8, v10)]) (None))
  ; (1240, V (Some [(s8, e23)]) (Some [(s8, e48)]) (Some [(s8, e104)]) ([(s8, v10)]) (None))
  ; (1241, V (Some [(s8, e23)]) (Some [(s8, e49)]) (Some [(s8, e105)]) ([(s8, v10)]) (None))
  ; (1242, V (Some [(s8, e21)]) (Some [(s8, e48)]) (Some [(s8, e104)]) ([(s8, v12)]) (Some [(s8, v12)]))
  ; (1243, V (Some [(s8, e21)]) (Some [(s8, e49)]) (Some [(s8, e104)]) ([(s8, v12)]) (Some [(s8, v12)]))
  ; (1244, V (Some [(s8, e23)]) (Some [(s8, e48)]) (Some [(s8, e104)]) ([(s8, v12)]) (Some [(s8, v12)]))
  ; (1245, V (Some [(s8, e23)]) (Some [(s8, e49)]) (Some [(s8, e105)]) ([(s8, v12)]) (Some [(s8, v12)]))
  ; (1246, V (Some [(s8, e21)]) (Some [(s8, e48)]) (Some [(s8, e104)]) ([(s8, v13)]) (None))
  ; (1247, V (Some [(s8, e21)]) (Some [(s8, e49)]) (Some [(s8, e104)]) ([(s8, v13)]) (None))
  ; (1248, V (Some [(s8, e23)]) (Some [(s8, e48)]) (Some [(s8, e104)]) ([(s8, v13)]) (None))
  ; (1249, V (Some [(s8, e23)]) (Some [(s8, e49)]) (Some [(s8, e105)]) ([(s8, v13)]) (None))
  ; (1250, V (Some [(s8, e21)]) (Some [(s8, e48)]) (Some [(s8, e104)]) ([(s8, v6)]) (None))
  ; (1251, V (Some [(s8, e21)]) (Some [(s8, e49)]) (Some [(s8, e104)]) ([(s8, v6)]) (None))
  ; (1252, V (Some [(s8, e23)]) (Some [(s8, e48)]) (Some [(s8, e104)]) ([(s8, v6)]) (None))
  ; (1253, V (Some [(s8, e23)]) (Some [(s8, e49)]) (Some [(s8, e105)]) ([(s8, v6)]) (None))
  ; (1254, V (Some [(s8, e21)]) (Some [(s8, e48)]) (Some [(s8, e104)]) ([]) (None))
  ; (1255, V (Some [(s8, e21)]) (Some [(s8, e49)]) (Some [(s8, e104)]) ([]) (None))
  ; (1256, V (Some [(s8, e23)]) (Some [(s8, e48)]) (Some [(s8, e104)]) ([]) (None))
  ; (1257, V (Some [(s8, e23)]) (Some [(s8, e49)]) (Some [(s8, e105)]) ([]) (None))
  ; (1258, V (Some [(s0, e31)]) (Some [(s0, e0)]) (Some [(s0, e32)]) ([(s0, v0)]) (Some [(s0, v0)]))
  ; (1259, V (Some [(s0, e31)]) (Some [(s0, e1)]) (Some [(s0, e32)]) ([(s0, v0)]) (Some [(s0, v0)]))
  ; (1260, V (Some [(s0, e33)]) (Some [(s0, e0)]) (Some [(s0, e32)]) ([(s0, v0)]) (Some [(s0, v0)]))
  ; (1261, V (Some [(s0, e33)]) (Some [(s0, e1)]) (Some [(s0, e34)]) ([(s0, v0)]) (Some [(s0, v0)]))
  ; (1262, V (Some [(s0, e31)]) (Some [(s0, e0)]) (Some [(s0, e32)]) ([(s0, v2)]) (Some [(s0, v0)]))
  ; (1263, V (Some [(s0, e31)]) (Some [(s0, e1)]) (Some [(s0, e32)]) ([(s0, v2)]) (Some [(s0, v0)]))
  ; (1264, V (Some [(s0, e33)]) (Some [(s0, e0)]) (Some [(s0, e32)]) ([(s0, v2)]) (Some [(s0, v0)]))
  ; (1265, V (Some [(s0, e33)]) (Some [(s0, e1)]) (Some [(s0, e34)]) ([(s0, v2)]) (Some [(s0, v0)]))
  ; (1266, V (Some [(s0, e31)]) (Some [(s0, e0)]) (Some [(s0, e32)]) ([]) (Some [(s0, v0)]))
  ; (1267, V (Some [(s0, e31)]) (Some [(s0, e1)]) (Some [(s0, e32)]) ([]) (Some [(s0, v0)]))
  ; (1268, V (Some [(s0, e33)]) (Some [(s0, e0)]) (Some [(s0, e32)]) ([]) (Some [(s0, v0)]))
  ; (1269, V (Some [(s0, e33)]) (Some [(s0, e1)]) (Some [(s0, e34)]) ([]) (Some [(s0, v0)]))
  ; (1270, V (Some [(s0, e31)]) (Some [(s0, e16)]) (Some [(s0, e92)]) ([(s0, v0)]) (Some [(s0, v0)]))
  ; (1271, V (Some [(s0, e31)]) (Some [(s0, e18)]) (Some [(s0, e92)]) ([(s0, v0)]) (Some [(s0, v0)]))
  ; (1272, V (Some [(s0, e33)]) (Some [(s0, e16)]) (Some [(s0, e92)]) ([(s0, v0)]) (Some [(s0, v0)]))
  ; (1273, V (Some [(s0, e33)]) (Some [(s0, e18)]) (Some [(s0, e93)]) ([(s0, v0)]) (Some [(s0, v0)]))
  ; (1274, V (Some [(s0, e31)]) (Some [(s0, e16)]) (Some [(s0, e92)]) ([(s0, v2)]) (None))
  ; (1275, V (Some [(s0, e31)]) (Some [(s0, e18)]) (Some [(s0, e92)]) ([(s0, v2)]) (None))
  ; (1276, V (Some [(s0, e33)]) (Some [(s0, e16)]) (Some [(s0, e92)]) ([(s0, v2)]) (None))
  ; (1277, V (Some [(s0, e33)]) (Some [(s0, e18)]) (Some [(s0, e93)]) ([(s0, v2)]) (None))
  ; (1278, V (Some [(s0, e31)]) (Some [(s0, e16)]) (Some [(s0, e92)]) ([]) (Some [(s0, v0)]))
  ; (1279, V (Some [(s0, e31)]) (Some [(s0, e18)]) (Some [(s0, e92)]) ([]) (Some [(s0, v0)]))
  ; (1280, V (Some [(s0, e33)]) (Some [(s0, e16)]) (Some [(s0, e92)]) ([]) (Some [(s0, v0)])) ].
Definition vectors6 : list (nat * vector) :=
  [ (1281, V (Some [(s0, e33)]) (Some [(s0, e18)]) (Some [(s0, e93)]) ([]) (Some [(s0, v0)]))
  ; (1282, V (Some [(s0, e31)]) (Some [(s0, e31)]) (Some [(s0, e31)]) ([(s0, v0)]) (Some [(s0, v0)]))
  ; (1283, V (Some [(s0, e31)]) (Some [(s0, e33)]) (Some [(s0, e31)]) ([(s0, v0)]) (Some [(s0, v0)]))
  ; (1284, V (Some [(s0, e33)]) (Some [(s0, e31)]) (Some [(s0, e31)]) ([(s0, v0)]) (Some [(s0, v0)]))
  ; (1285, V (Some [(s0, e33)]) (Some [(s0, e33)]) (Some [(s0, e33)]) ([(s0, v0)]) (Some [(s0, v0)]))
  ; (1286, V (Some [(s0, e31)]) (Some [(s0, e31)]) (Some [(s0, e31)]) ([(s0, v2)]) (None))
  ; (1287, V (Some [(s0, e31)]) (Some [(s0, e33)]) (Some [(s0, e31)]) ([(s0, v2)]) (None))
  ; (1288, V (Some [(s0, e33)]) (Some [(s0, e31)]) (Some [(s0, e31)]) ([(s0, v2)]) (None))
  ; (1289, V (Some [(s0, e33)]) (Some [(s0, e33)]) (Some [(s0, e33)]) ([(s0, v2)]) (None))
  ; (1290, V (Some [(s0, e31)]) (Some [(s0, e31)]) (Some [(s0, e31)]) ([]) (None))
  ; (1291, V (Some [(s0, e31)]) (Some [(s0, e33)]) (Some [(s0, e31)]) ([]) (None))
  ; (1292, V (Some [(s0, e33)]) (Some [(s0, e31)]) (Some [(s0, e31)]) ([]) (None))
  ; (1293, V (Some [(s0, e33)]) (Some [(s0, e33)]) (Some [(s0, e33)]) ([]) (Some []))
  ; (1294, V (Some [(s8, e106)]) (Some [(s8, e5)]) (None) ([(s8, v8)]) (None))
  ; (1295, V (Some [(s8, e106)]) (Some [(s8, e6)]) (None) ([(s8, v8)]) (None))
  ; (1296, V (Some [(s8, e107)]) (Some [(s8, e5)]) (None) ([(s8, v8)]) (None))
  ; (1297, V (Some [(s8, e107)]) (Some [(s8, e6)]) (None) ([(s8, v8)]) (None))
  ; (1298, V (Some [(s8, e106)]) (Some [(s8, e5)]) (None) ([(s8, v10)]) (None))
  ; (1299, V (Some [(s8, e106)]) (Some [(s8, e6)]) (None) ([(s8, v10)]) (None))
  ; (1300, V (Some [(s8, e107)]) (Some [(s8, e5)]) (None) ([(s8, v10)]) (None))
  ; (1301, V (Some [(s8, e107)]) (Some [(s8, e6)]) (None) ([(s8, v10)]) (None))
  ; (1302, V (Some [(s8, e106)]) (Some [(s8, e5)]) (None) ([(s8, v12)]) (None))
  ; (1303, V (Some [(s8, e106)]) (Some [(s8, e6)]) (None) ([(s8, v12)]) (None))
  ; (1304, V (Some [(s8, e107)]) (Some [(s8, e5)]) (None) ([(s8, v12)]) (None))
  ; (1305, V (Some [(s8, e107)]) (Some [(s8, e6)]) (None) ([(s8, v12)]) (None))
  ; (1306, V (Some [(s8, e106)]) (Some [(s8, e5)]) (None) ([(s8, v13)]) (None))
  ; (1307, V (Some [(s8, e106)]) (Some [(s8, e6)]) (None) ([(s8, v13)]) (None))
  ; (1308, V (Some [(s8, e107)]) (Some [(s8, e5)]) (None) ([(s8, v13)]) (None))
  ; (1309, V (Some [(s8, e107)]) (Some [(s8, e6)]) (None) ([(s8, v13)]) (None))
  ; (1310, V (Some [(s8, e106)]) (Some [(s8, e5)]) (None) ([(s8, v6)]) (None))
  ; (1311, V (Some [(s8, e106)]) (Some [(s8, e6)]) (None) ([(s8, v6)]) (None))
  ; (1312, V (Some [(s8, e107)]) (Some [(s8, e5)]) (None) ([(s8, v6)]) (None))
  ; (1313, V (Some [(s8, e107)]) (Some [(s8, e6)]) (None) ([(s8, v6)]) (None))
  ; (1314, V (Some [(s8, e106)]) (Some [(s8, e5)]) (None) ([]) (None))
  ; (1315, V (Some [(s8, e106)]) (Some [(s8, e6)]) (None) ([]) (None))
  ; (1316, V (Some [(s8, e107)]) (Some [(s8, e5)]) (None) ([]) (None))
  ; (1317, V (Some [(s8, e107)]) (Some [(s8, e6)]) (None) ([]) (None))
  ; (1318, V (Some [(s8, e106)]) (Some [(s8, e8)]) (None) ([(s8, v8)]) (None))
  ; (1319, V (Some [(s8, e106)]) (Some [(s8, e9)]) (None) ([(s8, v8)]) (None))
  ; (1320, V (Some [(s8, e107)]) (Some [(s8, e8)]) (None) ([(s8, v8)]) (None))
  ; (1321, V (Some [(s8, e107)]) (Some [(s8, e9)]) (None) ([(s8, v8)]) (None))
  ; (1322, V (Some [(s8, e106)]) (Some [(s8, e8)]) (None) ([(s8, v10)]) (None))
  ; (1323, V (Some [(s8, e106)]) (Some [(s8, e9)]) (None) ([(s8, v10)]) (None))
  ; (1324, V (Some [(s8, e107)]) (Some [(s8, e8)]) (None) ([(s8, v10)]) (None))
  ; (1325, V (Some [(s8, e107)]) (Some [(s8, e9)]) (None) ([(s8, v10)]) (None))
  ; (1326, V (Some [(s8, e106)]) (Some [(s8, e8)]) (None) ([(s8, v12)]) (None))
  ; (1327, V (Some [(s8, e106)]) (Some [(s8, e9)]) (None) ([(s8, v12)]) (None))
  ; (1328, V (Some [(s8, e107)]) (Some [(s8, e8)]) (None) ([(s8, v12)]) (None))
  ; (1329, V (Some [(s8, e107)]) (Some [(s8, e9)]) (None) ([(s8, v12)]) (None))
  ; (1330, V (Some [(s8, e106)]) (Some [(s8, e8)]) (None) ([(s8, v13)]) (None))
  ; (1331, V (Some [(s8, e106)]) (Some [(s8, e9)]) (None) ([(s8, v13)]) (None))
  ; (1332, V (Some [(s8, e107)]) (Some [(s8, e8)]) (None) ([(s8, v13)]) (None))
  ; (1333, V (Some [(s8, e107)]) (Some [(s8, e9)]) (None) ([(s8, v13)]) (None))
  ; (1334, V (Some [(s8, e106)]) (Some [(s8, e8)]) (None) ([(s8, v6)]) (None))
  ; (1335, V (Some [(s8, e106)]) (Some [(s8, e9)]) (None) ([(s8, v6)]) (None))
  ; (1336, V (Some [(s8, e107)]) (Some [(s8, e8)]) (None) ([(s8, v6)]) (None))
  ; (1337, V (Some [(s8, e107)]) (Some [(s8, e9)]) (None) ([(s8, v6)]) (None))
  ; (1338, V (Some [(s8, e106)]) (Some [(s8, e8)]) (None) ([]) (None))
  ; (1339, V (Some [(s8, e106)]) (Some [(s8, e9)]) (None) ([]) (None))
  ; (1340, V (Some [(s8, e107)]) (Some [(s8, e8)]) (None) ([]) (None))
  ; (1341, V (Some [(s8, e107)]) (Some [(s8, e9)]) (None) ([]) (None))
  ; (1342, V (Some [(s8, e36)]) (Some [(s8, e8)]) (None) ([(s8, v8)]) (None))
  ; (1343, V (Some [(s8, e36)]) (Some [(s8, e9)]) (None) ([(s8, v8)]) (None))
  ; (1344, V (Some [(s8, e38)]) (Some [(s8, e8)]) (None) ([(s8, v8)]) (None))
  ; (1345, V (Some [(s8, e38)]) (Some [(s8, e9)]) (None) ([(s8, v8)]) (None))
  ; (1346, V (Some [(s8, e36)]) (Some [(s8, e8)]) (None) ([(s8, v10)]) (None))
  ; (1347, V (Some [(s8, e36)]) (Some [(s8, e9)]) (None) ([(s8, v10)]) (None))
  ; (1348, V (Some [(s8, e38)]) (Some [(s8, e8)]) (None) ([(s8, v10)]) (None))
  ; (1349, V (Some [(s8, e38)]) (Some [(s8, e9)]) (None) ([(s8, v10)]) (None))
  ; (1350, V (Some [(s8, e36)]) (Some [(s8, e8)]) (None) ([(s8, v12)]) (None))
  ; (1351, V (Some [(s8, e36)]) (Some [(s8, e9)]) (None) ([(s8, v12)]) (None))
  ; (1352, V (Some [(s8, e38)]) (Some [(s8, e8)]) (None) ([(s8, v12)]) (None))
  ; (1353, V (Some [(s8, e38)]) (Some [(s8, e9)]) (None) ([(s8, v12)]) (None))
  ; (1354, V (Some [(s8, e36)]) (Some [(s8, e8)]) (None) ([(s8, v13)]) (None))
  ; (1355, V (Some [(s8, e36)]) (Some [(s8, e9)]) (None) ([(s8, v13)]) (None))
  ; (1356, V (Some [(s8, e38)]) (Some [(s8, e8)]) (None) ([(s8, v13)]) (None))
  ; (1357, V (Some [(s8, e38)]) (Some [(s8, e9)]) (None) ([(s8, v13)]) (None))
  ; (1358, V (Some [(s8, e36)]) (Some [(s8, e8)]) (None) ([(s8, v6)]) (None))
  ; (1359, V (Some [(s8, e36)]) (Some [(s8, e9)]) (None) ([(s8, v6)]) (None))
  ; (1360, V (Some [(s8, e38)]) (Some [(s8, e8)]) (None) ([(s8, v6)]) (None))
  ; (1361, V (Some [(s8, e38)]) (Some [(s8, e9)]) (None) ([(s8, v6)]) (None))
  ; (1362, V (Some [(s8, e36)]) (Some [(s8, e8)]) (None) ([]) (None))
  ; (1363, V (Some [(s8, e36)]) (Some [(s8, e9)]) (None) ([]) (None))
  ; (1364, V (Some [(s8, e38)]) (Some [(s8, e8)]) (None) ([]) (None))
  ; (1365, V (Some [(s8, e38)]) (Some [(s8, e9)]) (None) ([]) (None))
  ; (1366, V (Some [(s8, e106)]) (Some [(s8, e12)]) (None) ([(s8, v8)]) (None))
  ; (1367, V (Some [(s8, e106)]) (Some [(s8, e13)]) (None) ([(s8, v8)]) (None))
  ; (1368, V (Some [(s8, e107)]) (Some [(s8, e12)]) (None) ([(s8, v8)]) (None))
  ; (1369, V (Some [(s8, e107)]) (Some [(s8, e13)]) (None) ([(s8, v8)]) (None))
  ; (1370, V (Some [(s8, e106)]) (Some [(s8, e12)]) (None) ([(s8, v10)]) (None))
  ; (1371, V (Some [(s8, e106)]) (Some [(s8, e13)]) (None) ([(s8, v10)]) (None))
  ; (1372, V (Some [(s8, e107)]) (Some [(s8, e12)]) (None) ([(s8, v10)]) (None))
  ; (1373, V (Some [(s8, e107)]) (Some [(s8, e13)]) (None) ([(s8, v10)]) (None))
  ; (1374, V (Some [(s8, e106)]) (Some [(s8, e12)]) (None) ([(s8, v12)]) (None))
  ; (1375, V (Some [(s8, e106)]) (Some [(s8, e13)]) (None) ([(s8, v12)]) (None))
  ; (1376, V (Some [(s8, e107)]) (Some [(s8, e12)]) (None) ([(s8, v12)]) (None))
  ; (1377, V (Some [(s8, e107)]) (Some [(s8, e13)]) (None) ([(s8, v12)]) (None))
  ; (1378, V (Some [(s8, e106)]) (Some [(s8, e12)]) (None) ([(s8, v13)]) (None))
  ; (1379, V (Some [(s8, e106)]) (Some [(s8, e13)]) (None) ([(s8, v13)]) (None))
  ; (1380, V (Some [(s8, e107)]) (Some [(s8, e12)]) (None) ([(s8, v13)]) (None))
  ; (1381, V (Some [(s8, e107)]) (Some [(s8, e13)]) (None) ([(s8, v13)]) (None))
  ; (1382, V (Some [(s8, e106)]) (Some [(s8, e12)]) (None) ([(s8, v6)]) (None))
  ; (1383, V (Some [(s8, e106)]) (Some [(s8, e13)]) (None) ([(s8, v6)]) (None))
  ; (1384, V (Some [(s8, e107)]) (Some [(s8, e12)]) (None) ([(s8, v6)]) (None))
  ; (1385, V (Some [(s8, e107)]) (Some [(s8, e13)]) (None) ([(s8, v6)]) (None))
  ; (1386, V (Some [(s8, e106)]) (Some [(s8, e12)]) (None) ([]) (None))
  ; (1387, V (Some [(s8, e106)]) (Some [(s8, e13)]) (None) ([]) (None))
  ; (1388, V (Some [(s8, e107)]) (Some [(s8, e12)]) (None) ([]) (None))
  ; (1389, V (Some [(s8, e107)]) (Some [(s8, e13)]) (None) ([]) (None))
  ; (1390, V (Some [(s8, e106)]) (Some [(s8, e14)]) (None) ([(s8, v8)]) (None))
  ; (1391, V (Some [(s8, e106)]) (Some [(s8, e15)]) (None) ([(s8, v8)]) (None))
  ; (1392, V (Some [(s8, e107)]) (Some [(s8, e14)]) (None) ([(s8, v8)]) (None))
  ; (1393, V (Some [(s8, e107)]) (Some [(s8, e15)]) (None) ([(s8, v8)]) (None))
  ; (1394, V (Some [(s8, e106)]) (Some [(s8, e14)]) (None) ([(s8, v10)]) (None))
  ; (1395, V (Some [(s8, e106)]) (Some [(s8, e15)]) (None) ([(s8, v10)]) (None))
  ; (1396, V (Some [(s8, e107)]) (Some [(s8, e14)]) (None) ([(s8, v10)]) (None))
  ; (1397, V (Some [(s8, e107)]) (Some [(s8, e15)]) (None) ([(s8, v10)]) (None))
  ; (1398, V (Some [(s8, e106)]) (Some [(s8, e14)]) (None) ([(s8, v12)]) (None))
  ; (1399, V (Some [(s8, e106)]) (Some [(s8, e15)]) (None) ([(s8, v12)]) (None))
  ; (1400, V (Some [(s8, e107)]) (Some [(s8, e14)]) (None) ([(s8, v12)]) (None))
  ; (1401, V (Some [(s8, e107)]) (Some [(s8, e15)]) (None) ([(s8, v12)]) (None))
  ; (1402, V (Some [(s8, e106)]) (Some [(s8, e14)]) (None) ([(s8, v13)]) (None))
  ; (1403, V (Some [(s8, e106)]) (Some [(s8, e15)]) (None) ([(s8, v13)]) (None))
  ; (1404, V (Some [(s8, e107)]) (Some [(s8, e14)]) (None) ([(s8, v13)]) (None))
  ; (1405, V (Some [(s8, e107)]) (Some [(s8, e15)]) (None) ([(s8, v13)]) (None))
  ; (1406, V (Some [(s8, e106)]) (Some [(s8, e14)]) (None) ([(s8, v6)]) (None))
  ; (1407, V (Some [(s8, e106)]) (Some [(s8, e15)]) (None) ([(s8, v6)]) (None))
  ; (1408, V (Some [(s8, e107)]) (Some [(s8, e14)]) (None) ([(s8, v6)]) (None))
  ; (1409, V (Some [(s8, e107)]) (Some [(s8, e15)]) (None) ([(s8, v6)]) (None))
  ; (1410, V (Some [(s8, e106)]) (Some [(s8, e14)]) (None) ([]) (None))
  ; (1411, V (Some [(s8, e106)]) (Some [(s8, e15)]) (None) ([]) (None))
  ; (1412, V (Some [(s8, e107)]) (Some [(s8, e14)]) (None) ([]) (None))
  ; (1413, V (Some [(s8, e107)]) (Some [(s8, e15)]) (None) ([]) (None))
  ; (1414, V (Some [(s8, e36)]) (Some [(s8, e14)]) (None) ([(s8, v8)]) (None))
  ; (1415, V (Some [(s8, e36)]) (Some [(s8, e15)]) (None) ([(s8, v8)]) (None))
  ; (1416, V (Some [(s8, e38)]) (Some [(s8, e14)]) (None) ([(s8, v8)]) (None))
  ; (1417, V (Some [(s8, e38)]) (Some [(s8, e15)]) (None) ([(s8, v8)]) (None))
  ; (1418, V (Some [(s8, e36)]) (Some [(s8, e14)]) (None) ([(s8, v10)]) (None))
  ; (1419, V (Some [(s8, e36)]) (Some [(s8, e15)]) (None) ([(s8, v10)]) (None))
  ; (1420, V (Some [(s8, e38)]) (Some [(s8, e14)]) (None) ([(s8, v10)]) (None))
  ; (1421, V (Some [(s8, e38)]) (Some [(s8, e15)]) (None) ([(s8, v10)]) (None))
  ; (1422, V (Some [(s8, e36)]) (Some [(s8, e14)]) (None) ([(s8, v12)]) (None))
  ; (1423, V (Some [(s8, e36)]) (Some [(s8, e15)]) (None) ([(s8, v12)]) (None))
  ; (1424, V (Some [(s8, e38)]) (Some [(s8, e14)]) (None) ([(s8, v12)]) (None))
  ; (1425, V (Some [(s8, e38)]) (Some [(s8, e15)]) (None) ([(s8, v12)]) (None))
  ; (1426, V (Some [(s8, e36)]) (Some [(s8, e14)]) (None) ([(s8, v13)]) (None))
  ; (1427, V (Some [(s8, e36)]) (Some [(s8, e15)]) (None) ([(s8, v13)]) (None))
  ; (1428, V (Some [(s8, e38)]) (Some [(s8, e14)]) (None) ([(s8, v13)]) (None))
  ; (1429, V (Some [(s8, e38)]) (Some [(s8, e15)]) (None) ([(s8, v13)]) (None))
  ; (1430, V (Some [(s8, e36)]) (Some [(s8, e14)]) (None) ([(s8, v6)]) (None))
  ; (1431, V (Some [(s8, e36)]) (Some [(s8, e15)]) (None) ([(s8, v6)]) (None))
  ; (1432, V (Some [(s8, e38)]) (Some [(s8, e14)]) (None) ([(s8, v6)]) (None))
  ; (1433, V (Some [(s8, e38)]) (Some [(s8, e15)]) (None) ([(s8, v6)]) (None))
  ; (1434, V (Some [(s8, e36)]) (Some [(s8, e14)]) (None) ([]) (None))
  ; (1435, V (Some [(s8, e36)]) (Some [(s8, e15)]) (None) ([]) (None))
  ; (1436, V (Some [(s8, e38)]) (Some [(s8, e14)]) (None) ([]) (None))
  ; (1437, V (Some [(s8, e38)]) (Some [(s8, e15)]) (None) ([]) (None))
  ; (1438, V (Some [(s8, e106)]) (Some [(s8, e21)]) (Some [(s8, e108)]) ([(s8, v8)]) (Some [(s8, v6)]))
  ; (1439, V (Some [(s8, e106)]) (Some [(s8, e23)]) (Some [(s8, e108)]) ([(s8, v8)]) (Some [(s8, v6)]))
  ; (1440, V (Some [(s8, e107)]) (Some [(s8, e21)]) (Some [(s8, e108)]) ([(s8, v8)]) (Some [(s8, v6)]))
  ; (1441, V (Some [(s8, e107)]) (Some [(s8, e23)]) (Some [(s8, e109)]) ([(s8, v8)]) (Some [(s8, v6)]))
  ; (1442, V (Some [(s8, e106)]) (Some [(s8, e21)]) (Some [(s8, e108)]) ([(s8, v10)]) (Some [(s8, v6)]))
  ; (1443, V (Some [(s8, e106)]) (Some [(s8, e23)]) (Some [(s8, e108)]) ([(s8, v10)]) (Some [(s8, v6)]))
  ; (1444, V (Some [(s8, e107)]) (Some [(s8, e21)]) (Some [(s8, e108)]) ([(s8, v10)]) (Some [(s8, v6)]))
  ; (1445, V (Some [(s8, e107)]) (Some [(s8, e23)]) (Some [(s8, e109)]) ([(s8, v10)]) (Some [(s8, v6)]))
  ; (1446, V (Some [(s8, e106)]) (Some [(s8, e21)]) (Some [(s8, e108)]) ([(s8, v12)]) (Some [(s8, v6)]))
  ; (1447, V (Some [(s8, e106)]) (Some [(s8, e23)]) (Some [(s8, e108)]) ([(s8, v12)]) (Some [(s8, v6)]))
  ; (1448, V (Some [(s8, e107)]) (Some [(s8, e21)]) (Some [(s8, e108)]) ([(s8, v12)]) (Some [(s8, v6)]))
  ; (1449, V (Some [(s8, e107)]) (Some [(s8, e23)]) (Some [(s8, e109)]) ([(s8, v12)]) (Some [(s8, v6)]))
  ; (1450, V (Some [(s8, e106)]) (Some [(s8, e21)]) (Some [(s8, e108)]) ([(s8, v13)]) (Some [(s8, v6)]))
  ; (1451, V (Some [(s8, e106)]) (Some [(s8, e23)]) (Some [(s8, e108)]) ([(s8, v13)]) (Some [(s8, v6)]))
  ; (1452, V (Some [(s8, e107)]) (Some [(s8, e21)]) (Some [(s8, e108)]) ([(s8, v13)]) (Some [(s8, v6)]))
  ; (1453, V (Some [(s8, e107)]) (Some [(s8, e23)]) (Some [(s8, e109)]) ([(s8, v13)]) (Some [(s8, v6)]))
  ; (1454, V (Some [(s8, e106)]) (Some [(s8, e21)]) (Some [(s8, e108)]) ([(s8, v6)]) (Some [(s8, v6)]))
  ; (1455, V (Some [(s8, e106)]) (Some [(s8, e23)]) (Some [(s8, e108)]) ([(s8, v6)]) (Some [(s8, v6)]))
  ; (1456, V (Some [(s8, e107)]) (Some [(s8, e21)]) (Some [(s8, e108)]) ([(s8, v6)]) (Some [(s8, v6)]))
  ; (1457, V (Some [(s8, e107)]) (Some [(s8, e23)]) (Some [(s8, e109)]) ([(s8, v6)]) (Some [(s8, v6)]))
  ; (1458, V (Some [(s8, e106)]) (Some [(s8, e21)]) (Some [(s8, e108)]) ([]) (Some [(s8, v6)]))
  ; (1459, V (Some [(s8, e106)]) (Some [(s8, e23)]) (Some [(s8, e108)]) ([]) (Some [(s8, v6)]))
  ; (1460, V (Some [(s8, e107)]) (Some [(s8, e21)]) (Some [(s8, e108)]) ([]) (Some [(s8, v6)]))
  ; (1461, V (Some [(s8, e107)]) (Some [(s8, e23)]) (Some [(s8, e109)]) ([]) (Some [(s8, v6)]))
  ; (1462, V (Some [(s8, e106)]) (Some [(s8, e25)]) (Some [(s8, e110)]) ([(s8, v8)]) (Some [(s8, v6)]))
  ; (1463, V (Some [(s8, e106)]) (Some [(s8, e27)]) (Some [(s8, e110)]) ([(s8, v8)]) (Some [(s8, v6)]))
  ; (1464, V (Some [(s8, e107)]) (Some [(s8, e25)]) (Some [(s8, e110)]) ([(s8, v8)]) (Some [(s8, v6)]))
  ; (1465, V (Some [(s8, e107)]) (Some [(s8, e27)]) (Some [(s8, e111)]) ([(s8, v8)]) (Some [(s8, v6)]))
  ; (1466, V (Some [(s8, e106)]) (Some [(s8, e25)]) (Some [(s8, e110)]) ([(s8, v10)]) (Some [(s8, v6)]))
  ; (1467, V (Some [(s8, e106)]) (Some [(s8, e27)]) (Some [(s8, e110)]) ([(s8, v10)]) (Some [(s8, v6)]))
  ; (1468, V (Some [(s8, e107)]) (Some [(s8, e25)]) (Some [(s8, e110)]) ([(s8, v10)]) (Some [(s8, v6)]))
  ; (1469, V (Some [(s8, e107)]) (Some [(s8, e27)]) (Some [(s8, e111)]) ([(s8, v10)]) (Some [(s8, v6)]))
  ; (1470, V (Some [(s8, e106)]) (Some [(s8, e25)]) (Some [(s8, e110)]) ([(s8, v12)]) (Some [(s8, v6)]))
  ; (1471, V (Some [(s8, e106)]) (Some [(s8, e27)]) (Some [(s8, e110)]) ([(s8, v12)]) (Some [(s8, v6)]))
  ; (1472, V (Some [(s8, e107)]) (Some [(s8, e25)]) (Some [(s8, e110)]) ([(s8, v12)]) (Some [(s8, v6)]))
  ; (1473, V (Some [(s8, e107)]) (Some [(s8, e27)]) (Some [(s8, e111)]) ([(s8, v12)]) (Some [(s8, v6)]))
  ; (1474, V (Some [(s8, e106)]) (Some [(s8, e25)]) (Some [(s8, e110)]) ([(s8, v13)]) (Some [(s8, v6)]))
  ; (1475, V (Some [(s8, e106)]) (Some [(s8, e27)]) (Some [(s8, e110)]) ([(s8, v13)]) (Some [(s8, v6)]))
  ; (1476, V (Some [(s8, e107)]) (Some [(s8, e25)]) (Some [(s8, e110)]) ([(s8, v13)]) (Some [(s8, v6)]))
  ; (1477, V (Some [(s8, e107)]) (Some [(s8, e27)]) (Some [(s8, e111)]) ([(s8, v13)]) (Some [(s8, v6)]))
  ; (1478, V (Some [(s8, e106)]) (Some [(s8, e25)]) (Some [(s8, e110)]) ([(s8, v6)]) (Some [(s8, v6)]))
  ; (1479, V (Some [(s8, e106)]) (Some [(s8, e27)]) (Some [(s8, e110)]) ([(s8, v6)]) (Some [(s8, v6)]))
  ; (1480, V (Some [(s8, e107)]) (Some [(s8, e25)]) (Some [(s8, e110)]) ([(s8, v6)]) (Some [(s8, v6)])) ].
Definition vectors7 : list (nat * vector) :=
  [ (1481, V (Some [(s8, e107)]) (Some [(s8, e27)]) (Some [(s8, e111)]) ([(s8, v6)]) (Some [(s8, v6)]))
  ; (1482, V (Some [(s8, e106)]) (Some [(s8, e25)]) (Some [(s8, e110)]) ([]) (Some [(s8, v6)]))
  ; (1483, V (Some [(s8, e106)]) (Some [(s8, e27)]) (Some [(s8, e110)]) ([]) (Some [(s8, v6)]))
  ; (1484, V (Some [(s8, e107)]) (Some [(s8, e25)]) (Some [(s8, e110)]) ([]) (Some [(s8, v6)]))
  ; (1485, V (Some [(s8, e107)]) (Some [(s8, e27)]) (Some [(s8, e111)]) ([]) (Some [(s8, v6)]))
  ; (1486, V (Some [(s8, e36)]) (Some [(s8, e25)]) (Some [(s8, e112)]) ([(s8, v8)]) (Some [(s8, v8)]))
  ; (1487, V (Some [(s8, e36)]) (Some [(s8, e27)]) (Some [(s8, e112)]) ([(s8, v8)]) (Some [(s8, v8)]))
  ; (1488, V (Some [(s8, e38)]) (Some [(s8, e25)]) (Some [(s8, e112)]) ([(s8, v8)]) (Some [(s8, v8)]))
  ; (1489, V (Some [(s8, e38)]) (Some [(s8, e27)]) (Some [(s8, e113)]) ([(s8, v8)]) (Some [(s8, v8)]))
  ; (1490, V (Some [(s8, e36)]) (Some [(s8, e25)]) (Some [(s8, e112)]) ([(s8, v10)]) (Some [(s8, v6)]))
  ; (1491, V (Some [(s8, e36)]) (Some [(s8, e27)]) (Some [(s8, e112)]) ([(s8, v10)]) (Some [(s8, v6)]))
  ; (1492, V (Some [(s8, e38)]) (Some [(s8, e25)]) (Some [(s8, e112)]) ([(s8, v10)]) (Some [(s8, v6)]))
  ; (1493, V (Some [(s8, e38)]) (Some [(s8, e27)]) (Some [(s8, e113)]) ([(s8, v10)]) (Some [(s8, v6)]))
  ; (1494, V (Some [(s8, e36)]) (Some [(s8, e25)]) (Some [(s8, e112)]) ([(s8, v12)]) (Some [(s8, v8)]))
  ; (1495, V (Some [(s8, e36)]) (Some [(s8, e27)]) (Some [(s8, e112)]) ([(s8, v12)]) (Some [(s8, v8)]))
  ; (1496, V (Some [(s8, e38)]) (Some [(s8, e25)]) (Some [(s8, e112)]) ([(s8, v12)]) (Some [(s8, v8)]))
  ; (1497, V (Some [(s8, e38)]) (Some [(s8, e27)]) (Some [(s8, e113)]) ([(s8, v12)]) (Some [(s8, v8)]))
  ; (1498, V (Some [(s8, e36)]) (Some [(s8, e25)]) (Some [(s8, e112)]) ([(s8, v13)]) (Some [(s8, v8)]))
  ; (1499, V (Some [(s8, e36)]) (Some [(s8, e27)]) (Some [(s8, e112)]) ([(s8, v13)]) (Some [(s8, v8)]))
  ; (1500, V (Some [(s8, e38)]) (Some [(s8, e25)]) (Some [(s8, e112)]) ([(s8, v13)]) (Some [(s8, v8)]))
  ; (1501, V (Some [(s8, e38)]) (Some [(s8, e27)]) (Some [(s8, e113)]) ([(s8, v13)]) (Some [(s8, v8)]))
  ; (1502, V (Some [(s8, e36)]) (Some [(s8, e25)]) (Some [(s8, e112)]) ([(s8, v6)]) (Some [(s8, v6)]))
  ; (1503, V (Some [(s8, e36)]) (Some [(s8, e27)]) (Some [(s8, e112)]) ([(s8, v6)]) (Some [(s8, v6)]))
  ; (1504, V (Some [(s8, e38)]) (Some [(s8, e25)]) (Some [(s8, e112)]) ([(s8, v6)]) (Some [(s8, v6)]))
  ; (1505, V (Some [(s8, e38)]) (Some [(s8, e27)]) (Some [(s8, e113)]) ([(s8, v6)]) (Some [(s8, v6)]))
  ; (1506, V (Some [(s8, e36)]) (Some [(s8, e25)]) (Some [(s8, e112)]) ([]) (Some [(s8, v8)]))
  ; (1507, V (Some [(s8, e36)]) (Some [(s8, e27)]) (Some [(s8, e112)]) ([]) (Some [(s8, v8)]))
  ; (1508, V (Some [(s8, e38)]) (Some [(s8, e25)]) (Some [(s8, e112)]) ([]) (Some [(s8, v8)]))
  ; (1509, V (Some [(s8, e38)]) (Some [(s8, e27)]) (Some [(s8, e113)]) ([]) (Some [(s8, v8)]))
  ; (1510, V (Some [(s8, e106)]) (Some [(s8, e36)]) (Some [(s8, e106)]) ([(s8, v8)]) (Some [(s8, v6)]))
  ; (1511, V (Some [(s8, e106)]) (Some [(s8, e38)]) (Some [(s8, e106)]) ([(s8, v8)]) (Some [(s8, v6)]))
  ; (1512, V (Some [(s8, e107)]) (Some [(s8, e36)]) (Some [(s8, e106)]) ([(s8, v8)]) (Some [(s8, v6)]))
  ; (1513, V (Some [(s8, e107)]) (Some [(s8, e38)]) (Some [(s8, e107)]) ([(s8, v8)]) (Some [(s8, v6)]))
  ; (1514, V (Some [(s8, e106)]) (Some [(s8, e36)]) (Some [(s8, e106)]) ([(s8, v10)]) (Some [(s8, v6)]))
  ; (1515, V (Some [(s8, e106)]) (Some [(s8, e38)]) (Some [(s8, e106)]) ([(s8, v10)]) (Some [(s8, v6)]))
  ; (1516, V (Some [(s8, e107)]) (Some [(s8, e36)]) (Some [(s8, e106)]) ([(s8, v10)]) (Some [(s8, v6)]))
  ; (1517, V (Some [(s8, e107)]) (Some [(s8, e38)]) (Some [(s8, e107)]) ([(s8, v10)]) (Some [(s8, v6)]))
  ; (1518, V (Some [(s8, e106)]) (Some [(s8, e36)]) (Some [(s8, e106)]) ([(s8, v12)]) (Some [(s8, v6)]))
  ; (1519, V (Some [(s8, e106)]) (Some [(s8, e38)]) (Some [(s8, e106)]) ([(s8, v12)]) (Some [(s8, v6)]))
  ; (1520, V (Some [(s8, e107)]) (Some [(s8, e36)]) (Some [(s8, e106)]) ([(s8, v12)]) (Some [(s8, v6)]))
  ; (1521, V (Some [(s8, e107)]) (Some [(s8, e38)]) (Some [(s8, e107)]) ([(s8, v12)]) (Some [(s8, v6)]))
  ; (1522, V (Some [(s8, e106)]) (Some [(s8, e36)]) (Some [(s8, e106)]) ([(s8, v13)]) (Some [(s8, v6)]))
  ; (1523, V (Some [(s8, e106)]) (Some [(s8, e38)]) (Some [(s8, e106)]) ([(s8, v13)]) (Some [(s8, v6)]))
  ; (1524, V (Some [(s8, e107)]) (Some [(s8, e36)]) (Some [(s8, e106)]) ([(s8, v13)]) (Some [(s8, v6)]))
  ; (1525, V (Some [(s8, e107)]) (Some [(s8, e38)]) (Some [(s8, e107)]) ([(s8, v13)]) (Some [(s8, v6)]))
  ; (1526, V (Some [(s8, e106)]) (Some [(s8, e36)]) (Some [(s8, e106)]) ([(s8, v6)]) (Some [(s8, v6)]))
  ; (1527, V (Some [(s8, e106)]) (Some [(s8, e38)]) (Some [(s8, e106)]) ([(s8, v6)]) (Some [(s8, v6)]))
  ; (1528, V (Some [(s8, e107)]) (Some [(s8, e36)]) (Some [(s8, e106)]) ([(s8, v6)]) (Some [(s8, v6)]))
  ; (1529, V (Some [(s8, e107)]) (Some [(s8, e38)]) (Some [(s8, e107)]) ([(s8, v6)]) (Some [(s8, v6)]))
  ; (1530, V (Some [(s8, e106)]) (Some [(s8, e36)]) (Some [(s8, e106)]) ([]) (None))
  ; (1531, V (Some [(s8, e106)]) (Some [(s8, e38)]) (Some [(s8, e106)]) ([]) (None))
  ; (1532, V (Some [(s8, e107)]) (Some [(s8, e36)]) (Some [(s8, e106)]) ([]) (None))
  ; (1533, V (Some [(s8, e107)]) (Some [(s8, e38)]) (Some [(s8, e107)]) ([]) (Some []))
  ; (1534, V (Some [(s8, e106)]) (Some [(s8, e40)]) (Some [(s8, e106)]) ([(s8, v8)]) (Some [(s8, v6)]))
  ; (1535, V (Some [(s8, e106)]) (Some [(s8, e42)]) (Some [(s8, e106)]) ([(s8, v8)]) (Some [(s8, v6)]))
  ; (1536, V (Some [(s8, e107)]) (Some [(s8, e40)]) (Some [(s8, e106)]) ([(s8, v8)]) (Some [(s8, v6)]))
  ; (1537, V (Some [(s8, e107)]) (Some [(s8, e42)]) (Some [(s8, e107)]) ([(s8, v8)]) (Some [(s8, v6)]))
  ; (1538, V (Some [(s8, e106)]) (Some [(s8, e40)]) (Some [(s8, e106)]) ([(s8, v10)]) (Some [(s8, v6)]))
  ; (1539, V (Some [(s8, e106)]) (Some [(s8, e42)]) (Some [(s8, e106)]) ([(s8, v10)]) (Some [(s8, v6)]))
  ; (1540, V (Some [(s8, e107)]) (Some [(s8, e40)]) (Some [(s8, e106)]) ([(s8, v10)]) (Some [(s8, v6)]))
  ; (1541, V (Some [(s8, e107)]) (Some [(s8, e42)]) (Some [(s8, e107)]) ([(s8, v10)]) (Some [(s8, v6)]))
  ; (1542, V (Some [(s8, e106)]) (Some [(s8, e40)]) (Some [(s8, e106)]) ([(s8, v12)]) (Some [(s8, v6)]))
  ; (1543, V (Some [(s8, e106)]) (Some [(s8, e42)]) (Some [(s8, e106)]) ([(s8, v12)]) (Some [(s8, v6)]))
  ; (1544, V (Some [(s8, e107)]) (Some [(s8, e40)]) (Some [(s8, e106)]) ([(s8, v12)]) (Some [(s8, v6)]))
  ; (1545, V (Some [(s8, e107)]) (Some [(s8, e42)]) (Some [(s8, e107)]) ([(s8, v12)]) (Some [(s8, v6)]))
  ; (1546, V (Some [(s8, e106)]) (Some [(s8, e40)]) (Some [(s8, e106)]) ([(s8, v13)]) (Some [(s8, v6)]))
  ; (1547, V (Some [(s8, e106)]) (Some [(s8, e42)]) (Some [(s8, e106)]) ([(s8, v13)]) (Some [(s8, v6)]))
  ; (1548, V (Some [(s8, e107)]) (Some [(s8, e40)]) (Some [(s8, e106)]) ([(s8, v13)]) (Some [(s8, v6)]))
  ; (1549, V (Some [(s8, e107)]) (Some [(s8, e42)]) (Some [(s8, e107)]) ([(s8, v13)]) (Some [(s8, v6)]))
  ; (1550, V (Some [(s8, e106)]) (Some [(s8, e40)]) (Some [(s8, e106)]) ([(s8, v6)]) (Some [(s8, v6)]))
  ; (1551, V (Some [(s8, e106)]) (Some [(s8, e42)]) (Some [(s8, e106)]) ([(s8, v6)]) (Some [(s8, v6)]))
  ; (1552, V (Some [(s8, e107)]) (Some [(s8, e40)]) (Some [(s8, e106)]) ([(s8, v6)]) (Some [(s8, v6)]))
  ; (1553, V (Some [(s8, e107)]) (Some [(s8, e42)]) (Some [(s8, e107)]) ([(s8, v6)]) (Some [(s8, v6)]))
  ; (1554, V (Some [(s8, e106)]) (Some [(s8, e40)]) (Some [(s8, e106)]) ([]) (None))
  ; (1555, V (Some [(s8, e106)]) (Some [(s8, e42)]) (Some [(s8, e106)]) ([]) (None))
  ; (1556, V (Some [(s8, e107)]) (Some [(s8, e40)]) (Some [(s8, e106)]) ([]) (None))
  ; (1557, V (Some [(s8, e107)]) (Some [(s8, e42)]) (Some [(s8, e107)]) ([]) (Some []))
  ; (1558, V (Some [(s8, e36)]) (Some [(s8, e40)]) (Some [(s8, e36)]) ([(s8, v8)]) (Some [(s8, v8)]))
  ; (1559, V (Some [(s8, e36)]) (Some [(s8, e42)]) (Some [(s8, e36)]) ([(s8, v8)]) (Some [(s8, v8)]))
  ; (1560, V (Some [(s8, e38)]) (Some [(s8, e40)]) (Some [(s8, e36)]) ([(s8, v8)]) (Some [(s8, v8)]))
  ; (1561, V (Some [(s8, e38)]) (Some [(s8, e42)]) (Some [(s8, e38)]) ([(s8, v8)]) (Some [(s8, v8)]))
  ; (1562, V (Some [(s8, e36)]) (Some [(s8, e40)]) (Some [(s8, e36)]) ([(s8, v10)]) (Some [(s8, v6)]))
  ; (1563, V (Some [(s8, e36)]) (Some [(s8, e42)]) (Some [(s8, e36)]) ([(s8, v10)]) (Some [(s8, v6)]))
  ; (1564, V (Some [(s8, e38)]) (Some [(s8, e40)]) (Some [(s8, e36)]) ([(s8, v10)]) (Some [(s8, v6)]))
  ; (1565, V (Some [(s8, e38)]) (Some [(s8, e42)]) (Some [(s8, e38)]) ([(s8, v10)]) (Some [(s8, v6)]))
  ; (1566, V (Some [(s8, e36)]) (Some [(s8, e40)]) (Some [(s8, e36)]) ([(s8, v12)]) (Some [(s8, v8)]))
  ; (1567, V (Some [(s8, e36)]) (Some [(s8, e42)]) (Some [(s8, e36)]) ([(s8, v12)]) (Some [(s8, v8)]))
  ; (1568, V (Some [(s8, e38)]) (Some [(s8, e40)]) (Some [(s8, e36)]) ([(s8, v12)]) (Some [(s8, v8)]))
  ; (1569, V (Some [(s8, e38)]) (Some [(s8, e42)]) (Some [(s8, e38)]) ([(s8, v12)]) (Some [(s8, v8)]))
  ; (1570, V (Some [(s8, e36)]) (Some [(s8, e40)]) (Some [(s8, e36)]) ([(s8, v13)]) (Some [(s8, v8)]))
  ; (1571, V (Some [(s8, e36)]) (Some [(s8, e42)]) (Some [(s8, e36)]) ([(s8, v13)]) (Some [(s8, v8)]))
  ; (1572, V (Some [(s8, e38)]) (Some [(s8, e40)]) (Some [(s8, e36)]) ([(s8, v13)]) (Some [(s8, v8)]))
  ; (1573, V (Some [(s8, e38)]) (Some [(s8, e42)]) (Some [(s8, e38)]) ([(s8, v13)]) (Some [(s8, v8)]))
  ; (1574, V (Some [(s8, e36)]) (Some [(s8, e40)]) (Some [(s8, e36)]) ([(s8, v6)]) (Some [(s8, v6)]))
  ; (1575, V (Some [(s8, e36)]) (Some [(s8, e42)]) (Some [(s8, e36)]) ([(s8, v6)]) (Some [(s8, v6)]))
  ; (1576, V (Some [(s8, e38)]) (Some [(s8, e40)]) (Some [(s8, e36)]) ([(s8, v6)]) (Some [(s8, v6)]))
  ; (1577, V (Some [(s8, e38)]) (Some [(s8, e42)]) (Some [(s8, e38)]) ([(s8, v6)]) (Some [(s8, v6)]))
  ; (1578, V (Some [(s8, e36)]) (Some [(s8, e40)]) (Some [(s8, e36)]) ([]) (None))
  ; (1579, V (Some [(s8, e36)]) (Some [(s8, e42)]) (Some [(s8, e36)]) ([]) (None))
  ; (1580, V (Some [(s8, e38)]) (Some [(s8, e40)]) (Some [(s8, e36)]) ([]) (None))
  ; (1581, V (Some [(s8, e38)]) (Some [(s8, e42)]) (Some [(s8, e38)]) ([]) (Some []))
  ; (1582, V (Some [(s8, e106)]) (Some [(s8, e46)]) (None) ([(s8, v8)]) (None))
  ; (1583, V (Some [(s8, e106)]) (Some [(s8, e47)]) (None) ([(s8, v8)]) (None))
  ; (1584, V (Some [(s8, e107)]) (Some [(s8, e46)]) (None) ([(s8, v8)]) (None))
  ; (1585, V (Some [(s8, e107)]) (Some [(s8, e47)]) (None) ([(s8, v8)]) (None))
  ; (1586, V (Some [(s8, e106)]) (Some [(s8, e46)]) (None) ([(s8, v10)]) (None))
  ; (1587, V (Some [(s8, e106)]) (Some [(s8, e47)]) (None) ([(s8, v10)]) (None))
  ; (1588, V (Some [(s8, e107)]) (Some [(s8, e46)]) (None) ([(s8, v10)]) (None))
  ; (1589, V (Some [(s8, e107)]) (Some [(s8, e47)]) (None) ([(s8, v10)]) (None))
  ; (1590, V (Some [(s8, e106)]) (Some [(s8, e46)]) (None) ([(s8, v12)]) (None))
  ; (1591, V (Some [(s8, e106)]) (Some [(s8, e47)]) (None) ([(s8, v12)]) (None))
  ; (1592, V (Some [(s8, e107)]) (Some [(s8, e46)]) (None) ([(s8, v12)]) (None))
  ; (1593, V (Some [(s8, e107)]) (Some [(s8, e47)]) (None) ([(s8, v12)]) (None))
  ; (1594, V (Some [(s8, e106)]) (Some [(s8, e46)]) (None) ([(s8, v13)]) (None))
  ; (1595, V (Some [(s8, e106)]) (Some [(s8, e47)]) (None) ([(s8, v13)]) (None))
  ; (1596, V (Some [(s8, e107)]) (Some [(s8, e46)]) (None) ([(s8, v13)]) (None))
  ; (1597, V (Some [(s8, e107)]) (Some [(s8, e47)]) (None) ([(s8, v13)]) (None))
  ; (1598, V (Some [(s8, e106)]) (Some [(s8, e46)]) (None) ([(s8, v6)]) (None))
  ; (1599, V (Some [(s8, e106)]) (Some [(s8, e47)]) (None) ([(s8, v6)]) (None))
  ; (1600, V (Some [(s8, e107)]) (Some [(s8, e46)]) (None) ([(s8, v6)]) (None))
  ; (1601, V (Some [(s8, e107)]) (Some [(s8, e47)]) (None) ([(s8, v6)]) (None))
  ; (1602, V (Some [(s8, e106)]) (Some [(s8, e46)]) (None) ([]) (None))
  ; (1603, V (Some [(s8, e106)]) (Some [(s8, e47)]) (None) ([]) (None))
  ; (1604, V (Some [(s8, e107)]) (Some [(s8, e46)]) (None) ([]) (None))
  ; (1605, V (Some [(s8, e107)]) (Some [(s8, e47)]) (None) ([]) (None))
  ; (1606, V (Some [(s8, e106)]) (Some [(s8, e48)]) (None) ([(s8, v8)]) (None))
  ; (1607, V (Some [(s8, e106)]) (Some [(s8, e49)]) (None) ([(s8, v8)]) (None))
  ; (1608, V (Some [(s8, e107)]) (Some [(s8, e48)]) (None) ([(s8, v8)]) (None))
  ; (1609, V (Some [(s8, e107)]) (Some [(s8, e49)]) (None) ([(s8, v8)]) (None))
  ; (1610, V (Some [(s8, e106)]) (Some [(s8, e48)]) (None) ([(s8, v10)]) (None))
  ; (1611, V (Some [(s8, e106)]) (Some [(s8, e49)]) (None) ([(s8, v10)]) (None))
  ; (1612, V (Some [(s8, e107)]) (Some [(s8, e48)]) (None) ([(s8, v10)]) (None))
  ; (1613, V (Some [(s8, e107)]) (Some [(s8, e49)]) (None) ([(s8, v10)]) (None))
  ; (1614, V (Some [(s8, e106)]) (Some [(s8, e48)]) (None) ([(s8, v12)]) (None))
  ; (1615, V (Some [(s8, e106)]) (Some [(s8, e49)]) (None) ([(s8, v12)]) (None))
  ; (1616, V (Some [(s8, e107)]) (Some [(s8, e48)]) (None) ([(s8, v12)]) (None))
  ; (1617, V (Some [(s8, e107)]) (Some [(s8, e49)]) (None) ([(s8, v12)]) (None))
  ; (1618, V (Some [(s8, e106)]) (Some [(s8, e48)]) (None) ([(s8, v13)]) (None))
  ; (1619, V (Some [(s8, e106)]) (Some [(s8, e49)]) (None) ([(s8, v13)]) (None))
  ; (1620, V (Some [(s8, e107)]) (Some [(s8, e48)]) (None) ([(s8, v13)]) (None))
  ; (1621, V (Some [(s8, e107)]) (Some [(s8, e49)]) (None) ([(s8, v13)]) (None))
  ; (1622, V (Some [(s8, e106)]) (Some [(s8, e48)]) (None) ([(s8, v6)]) (None))
  ; (1623, V (Some [(s8, e106)]) (Some [(s8, e49)]) (None) ([(s8, v6)]) (None))
  ; (1624, V (Some [(s8, e107)]) (Some [(s8, e48)]) (None) ([(s8, v6)]) (None))
  ; (1625, V (Some [(s8, e107)]) (Some [(s8, e49)]) (None) ([(s8, v6)]) (None))
  ; (1626, V (Some [(s8, e106)]) (Some [(s8, e48)]) (None) ([]) (None))
  ; (1627, V (Some [(s8, e106)]) (Some [(s8, e49)]) (None) ([]) (None))
  ; (1628, V (Some [(s8, e107)]) (Some [(s8, e48)]) (None) ([]) (None))
  ; (1629, V (Some [(s8, e107)]) (Some [(s8, e49)]) (None) ([]) (None))
  ; (1630, V (Some [(s8, e36)]) (Some [(s8, e48)]) (None) ([(s8, v8)]) (None))
  ; (1631, V (Some [(s8, e36)]) (Some [(s8, e49)]) (None) ([(s8, v8)]) (None))
  ; (1632, V (Some [(s8, e38)]) (Some [(s8, e48)]) (None) ([(s8, v8)]) (None))
  ; (1633, V (Some [(s8, e38)]) (Some [(s8, e49)]) (None) ([(s8, v8)]) (None))
  ; (1634, V (Some [(s8, e36)]) (Some [(s8, e48)]) (None) ([(s8, v10)]) (None))
  ; (1635, V (Some [(s8, e36)]) (Some [(s8, e49)]) (None) ([(s8, v10)]) (None))
  ; (1636, V (Some [(s8, e38)]) (Some [(s8, e48)]) (None) ([(s8, v10)]) (None))
  ; (1637, V (Some [(s8, e38)]) (Some [(s8, e49)]) (None) ([(s8, v10)]) (None))
  ; (1638, V (Some [(s8, e36)]) (Some [(s8, e48)]) (None) ([(s8, v12)]) (None))
  ; (1639, V (Some [(s8, e36)]) (Some [(s8, e49)]) (None) ([(s8, v12)]) (None))
  ; (1640, V (Some [(s8, e38)]) (Some [(s8, e48)]) (None) ([(s8, v12)]) (None))
  ; (1641, V (Some [(s8, e38)]) (Some [(s8, e49)]) (None) ([(s8, v12)]) (None))
  ; (1642, V (Some [(s8, e36)]) (Some [(s8, e48)]) (None) ([(s8, v13)]) (None))
  ; (1643, V (Some [(s8, e36)]) (Some [(s8, e49)]) (None) ([(s8, v13)]) (None))
  ; (1644, V (Some [(s8, e38)]) (Some [(s8, e48)]) (None) ([(s8, v13)]) (None))
  ; (1645, V (Some [(s8, e38)]) (Some [(s8, e49)]) (None) ([(s8, v13)]) (None))
  ; (1646, V (Some [(s8, e36)]) (Some [(s8, e48)]) (None) ([(s8, v6)]) (None))
  ; (1647, V (Some [(s8, e36)]) (Some [(s8, e49)]) (None) ([(s8, v6)]) (None))
  ; (1648, V (Some [(s8, e38)]) (Some [(s8, e48)]) (None) ([(s8, v6)]) (None))
  ; (1649, V (Some [(s8, e38)]) (Some [(s8, e49)]) (None) ([(s8, v6)]) (None))
  ; (1650, V (Some [(s8, e36)]) (Some [(s8, e48)]) (None) ([]) (None))
  ; (1651, V (Some [(s8, e36)]) (Some [(s8, e49)]) (None) ([]) (None))
  ; (1652, V (Some [(s8, e38)]) (Some [(s8, e48)]) (None) ([]) (None))
  ; (1653, V (Some [(s8, e38)]) (Some [(s8, e49)]) (None) ([]) (None))
  ; (1654, V (Some [(s8, e114)]) (Some [(s8, e5)]) (Some [(s8, e115)]) ([(s8, v8)]) (Some [(s8, v8)]))
  ; (1655, V (Some [(s8, e114)]) (Some [(s8, e6)]) (Some [(s8, e115)]) ([(s8, v8)]) (Some [(s8, v8)]))
  ; (1656, V (Some [(s8, e116)]) (Some [(s8, e5)]) (Some [(s8, e115)]) ([(s8, v8)]) (Some [(s8, v8)]))
  ; (1657, V (Some [(s8, e116)]) (Some [(s8, e6)]) (Some [(s8, e117)]) ([(s8, v8)]) (Some [(s8, v8)]))
  ; (1658, V (Some [(s8, e114)]) (Some [(s8, e5)]) (Some [(s8, e115)]) ([(s8, v10)]) (Some [(s8, v8)]))
  ; (1659, V (Some [(s8, e114)]) (Some [(s8, e6)]) (Some [(s8, e115)]) ([(s8, v10)]) (Some [(s8, v8)]))
  ; (1660, V (Some [(s8, e116)]) (Some [(s8, e5)]) (Some [(s8, e115)]) ([(s8, v10)]) (Some [(s8, v8)]))
  ; (1661, V (Some [(s8, e116)]) (Some [(s8, e6)]) (Some [(s8, e117)]) ([(s8, v10)]) (Some [(s8, v8)]))
  ; (1662, V (Some [(s8, e114)]) (Some [(s8, e5)]) (Some [(s8, e115)]) ([(s8, v12)]) (Some [(s8, v8)]))
  ; (1663, V (Some [(s8, e114)]) (Some [(s8, e6)]) (Some [(s8, e115)]) ([(s8, v12)]) (Some [(s8, v8)]))
  ; (1664, V (Some [(s8, e116)]) (Some [(s8, e5)]) (Some [(s8, e115)]) ([(s8, v12)]) (Some [(s8, v8)]))
  ; (1665, V (Some [(s8, e116)]) (Some [(s8, e6)]) (Some [(s8, e117)]) ([(s8, v12)]) (Some [(s8, v8)]))
  ; (1666, V (Some [(s8, e114)]) (Some [(s8, e5)]) (Some [(s8, e115)]) ([(s8, v13)]) (Some [(s8, v8)]))
  ; (1667, V (Some [(s8, e114)]) (Some [(s8, e6)]) (Some [(s8, e115)]) ([(s8, v13)]) (Some [(s8, v8)]))
  ; (1668, V (Some [(s8, e116)]) (Some [(s8, e5)]) (Some [(s8, e115)]) ([(s8, v13)]) (Some [(s8, v8)]))
  ; (1669, V (Some [(s8, e116)]) (Some [(s8, e6)]) (Some [(s8, e117)]) ([(s8, v13)]) (Some [(s8, v8)]))
  ; (1670, V (Some [(s8, e114)]) (Some [(s8, e5)]) (Some [(s8, e115)]) ([(s8, v6)]) (Some [(s8, v8)]))
  ; (1671, V (Some [(s8, e114)]) (Some [(s8, e6)]) (Some [(s8, e115)]) ([(s8, v6)]) (Some [(s8, v8)]))
  ; (1672, V (Some [(s8, e116)]) (Some [(s8, e5)]) (Some [(s8, e115)]) ([(s8, v6)]) (Some [(s8, v8)]))
  ; (1673, V (Some [(s8, e116)]) (Some [(s8, e6)]) (Some [(s8, e117)]) ([(s8, v6)]) (Some [(s8, v8)]))
  ; (1674, V (Some [(s8, e114)]) (Some [(s8, e5)]) (Some [(s8, e115)]) ([]) (Some [(s8, v8)]))
  ; (1675, V (Some [(s8, e114)]) (Some [(s8, e6)]) (Some [(s8, e115)]) ([]) (Some [(s8, v8)]))
  ; (1676, V (Some [(s8, e116)]) (Some [(s8, e5)]) (Some [(s8, e115)]) ([]) (Some [(s8, v8)]))
  ; (1677, V (Some [(s8, e116)]) (Some [(s8, e6)]) (Some [(s8, e117)]) ([]) (Some [(s8, v8)]))
  ; (1678, V (Some [(s8, e114)]) (Some [(s8, e8)]) (Some [(s8, e118)]) ([(s8, v8)]) (Some [(s8, v12)]))
  ; (1679, V (Some [(s8, e114)]) (Some [(s8, e9)]) (Some [(s8, e118)]) ([(s8, v8)]) (Some [(s8, v12)]))
  ; (1680, V (Some [(s8, e116)]) (Some [(s8, e8)]) (Some [(s8, e118)]) ([(s8, v8)]) (Some [(s8, v12)])) ].
Definition vectors8 : list (nat * vector) :=
  [ (1681, V (Some [(s8, e116)]) (Some [(s8, e9)]) (Some [(s8, e119)]) ([(s8, v8)]) (Some [(s8, v12)]))
  ; (1682, V (Some [(s8, e114)]) (Some [(s8, e8)]) (Some [(s8, e118)]) ([(s8, v10)]) (Some [(s8, v12)]))
  ; (1683, V (Some [(s8, e114)]) (Some [(s8, e9)]) (Some [(s8, e118)]) ([(s8, v10)]) (Some [(s8, v12)]))
  ; (1684, V (Some [(s8, e116)]) (Some [(s8, e8)]) (Some [(s8, e118)]) ([(s8, v10)]) (Some [(s8, v12)]))
  ; (1685, V (Some [(s8, e116)]) (Some [(s8, e9)]) (Some [(s8, e119)]) ([(s8, v10)]) (Some [(s8, v12)]))
  ; (1686, V (Some [(s8, e114)]) (Some [(s8, e8)]) (Some [(s8, e118)]) ([(s8, v12)]) (Some [(s8, v12)]))
  ; (1687, V (Some [(s8, e114)]) (Some [(s8, e9)]) (Some [(s8, e118)]) ([(s8, v12)]) (Some [(s8, v12)]))
  ; (1688, V (Some [(s8, e116)]) (Some [(s8, e8)]) (Some [(s8, e118)]) ([(s8, v12)]) (Some [(s8, v12)]))
  ; (1689, V (Some [(s8, e116)]) (Some [(s8, e9)]) (Some [(s8, e119)]) ([(s8, v12)]) (Some [(s8, v12)]))
  ; (1690, V (Some [(s8, e114)]) (Some [(s8, e8)]) (Some [(s8, e118)]) ([(s8, v13)]) (Some [(s8, v12)]))
  ; (1691, V (Some [(s8, e114)]) (Some [(s8, e9)]) (Some [(s8, e118)]) ([(s8, v13)]) (Some [(s8, v12)]))
  ; (1692, V (Some [(s8, e116)]) (Some [(s8, e8)]) (Some [(s8, e118)]) ([(s8, v13)]) (Some [(s8, v12)]))
  ; (1693, V (Some [(s8, e116)]) (Some [(s8, e9)]) (Some [(s8, e119)]) ([(s8, v13)]) (Some [(s8, v12)]))
  ; (1694, V (Some [(s8, e114)]) (Some [(s8, e8)]) (Some [(s8, e118)]) ([(s8, v6)]) (Some [(s8, v12)]))
  ; (1695, V (Some [(s8, e114)]) (Some [(s8, e9)]) (Some [(s8, e118)]) ([(s8, v6)]) (Some [(s8, v12)]))
  ; (1696, V (Some [(s8, e116)]) (Some [(s8, e8)]) (Some [(s8, e118)]) ([(s8, v6)]) (Some [(s8, v12)]))
  ; (1697, V (Some [(s8, e116)]) (Some [(s8, e9)]) (Some [(s8, e119)]) ([(s8, v6)]) (Some [(s8, v12)]))
  ; (1698, V (Some [(s8, e114)]) (Some [(s8, e8)]) (Some [(s8, e118)]) ([]) (Some [(s8, v12)]))
  ; (1699, V (Some [(s8, e114)]) (Some [(s8, e9)]) (Some [(s8, e118)]) ([]) (Some [(s8, v12)]))
  ; (1700, V (Some [(s8, e116)]) (Some [(s8, e8)]) (Some [(s8, e118)]) ([]) (Some [(s8, v12)]))
  ; (1701, V (Some [(s8, e116)]) (Some [(s8, e9)]) (Some [(s8, e119)]) ([]) (Some [(s8, v12)]))
  ; (1702, V (Some [(s8, e46)]) (Some [(s8, e8)]) (Some [(s8, e120)]) ([(s8, v8)]) (Some [(s8, v12)]))
  ; (1703, V (Some [(s8, e46)]) (Some [(s8, e9)]) (Some [(s8, e120)]) ([(s8, v8)]) (Some [(s8, v12)]))
  ; (1704, V (Some [(s8, e47)]) (Some [(s8, e8)]) (Some [(s8, e120)]) ([(s8, v8)]) (Some [(s8, v12)]))
  ; (1705, V (Some [(s8, e47)]) (Some [(s8, e9)]) (Some [(s8, e121)]) ([(s8, v8)]) (Some [(s8, v12)]))
  ; (1706, V (Some [(s8, e46)]) (Some [(s8, e8)]) (Some [(s8, e120)]) ([(s8, v10)]) (Some [(s8, v12)]))
  ; (1707, V (Some [(s8, e46)]) (Some [(s8, e9)]) (Some [(s8, e120)]) ([(s8, v10)]) (Some [(s8, v12)]))
  ; (1708, V (Some [(s8, e47)]) (Some [(s8, e8)]) (Some [(s8, e120)]) ([(s8, v10)]) (Some [(s8, v12)]))
  ; (1709, V (Some [(s8, e47)]) (Some [(s8, e9)]) (Some [(s8, e121)]) ([(s8, v10)]) (Some [(s8, v12)]))
  ; (1710, V (Some [(s8, e46)]) (Some [(s8, e8)]) (Some [(s8, e120)]) ([(s8, v12)]) (Some [(s8, v12)]))
  ; (1711, V (Some [(s8, e46)]) (Some [(s8, e9)]) (Some [(s8, e120)]) ([(s8, v12)]) (Some [(s8, v12)]))
  ; (1712, V (Some [(s8, e47)]) (Some [(s8, e8)]) (Some [(s8, e120)]) ([(s8, v12)]) (Some [(s8, v12)]))
  ; (1713, V (Some [(s8, e47)]) (Some [(s8, e9)]) (Some [(s8, e121)]) ([(s8, v12)]) (Some [(s8, v12)]))
  ; (1714, V (Some [(s8, e46)]) (Some [(s8, e8)]) (Some [(s8, e120)]) ([(s8, v13)]) (Some [(s8, v12)]))
  ; (1715, V (Some [(s8, e46)]) (Some [(s8, e9)]) (Some [(s8, e120)]) ([(s8, v13)]) (Some [(s8, v12)]))
  ; (1716, V (Some [(s8, e47)]) (Some [(s8, e8)]) (Some [(s8, e120)]) ([(s8, v13)]) (Some [(s8, v12)]))
  ; (1717, V (Some [(s8, e47)]) (Some [(s8, e9)]) (Some [(s8, e121)]) ([(s8, v13)]) (Some [(s8, v12)]))
  ; (1718, V (Some [(s8, e46)]) (Some [(s8, e8)]) (Some [(s8, e120)]) ([(s8, v6)]) (Some [(s8, v12)]))
  ; (1719, V (Some [(s8, e46)]) (Some [(s8, e9)]) (Some [(s8, e120)]) ([(s8, v6)]) (Some [(s8, v12)]))
  ; (1720, V (Some [(s8, e47)]) (Some [(s8, e8)]) (Some [(s8, e120)]) ([(s8, v6)]) (Some [(s8, v12)]))
  ; (1721, V (Some [(s8, e47)]) (Some [(s8, e9)]) (Some [(s8, e121)]) ([(s8, v6)]) (Some [(s8, v12)]))
  ; (1722, V (Some [(s8, e46)]) (Some [(s8, e8)]) (Some [(s8, e120)]) ([]) (Some [(s8, v12)]))
  ; (1723, V (Some [(s8, e46)]) (Some [(s8, e9)]) (Some [(s8, e120)]) ([]) (Some [(s8, v12)]))
  ; (1724, V (Some [(s8, e47)]) (Some [(s8, e8)]) (Some [(s8, e120)]) ([]) (Some [(s8, v12)]))
  ; (1725, V (Some [(s8, e47)]) (Some [(s8, e9)]) (Some [(s8, e121)]) ([]) (Some [(s8, v12)]))
  ; (1726, V (Some [(s8, e114)]) (Some [(s8, e12)]) (Some [(s8, e122)]) ([(s8, v8)]) (Some [(s8, v8)]))
  ; (1727, V (Some [(s8, e114)]) (Some [(s8, e13)]) (Some [(s8, e122)]) ([(s8, v8)]) (Some [(s8, v8)]))
  ; (1728, V (Some [(s8, e116)]) (Some [(s8, e12)]) (Some [(s8, e122)]) ([(s8, v8)]) (Some [(s8, v8)]))
  ; (1729, V (Some [(s8, e116)]) (Some [(s8, e13)]) (Some [(s8, e123)]) ([(s8, v8)]) (Some [(s8, v8)]))
  ; (1730, V (Some [(s8, e114)]) (Some [(s8, e12)]) (Some [(s8, e122)]) ([(s8, v10)]) (Some [(s8, v19)]))
  ; (1731, V (Some [(s8, e114)]) (Some [(s8, e13)]) (Some [(s8, e122)]) ([(s8, v10)]) (Some [(s8, v19)]))
  ; (1732, V (Some [(s8, e116)]) (Some [(s8, e12)]) (Some [(s8, e122)]) ([(s8, v10)]) (Some [(s8, v19)]))
  ; (1733, V (Some [(s8, e116)]) (Some [(s8, e13)]) (Some [(s8, e123)]) ([(s8, v10)]) (Some [(s8, v19)]))
  ; (1734, V (Some [(s8, e114)]) (Some [(s8, e12)]) (Some [(s8, e122)]) ([(s8, v12)]) (Some [(s8, v12)]))
  ; (1735, V (Some [(s8, e114)]) (Some [(s8, e13)]) (Some [(s8, e122)]) ([(s8, v12)]) (Some [(s8, v12)]))
  ; (1736, V (Some [(s8, e116)]) (Some [(s8, e12)]) (Some [(s8, e122)]) ([(s8, v12)]) (Some [(s8, v12)]))
  ; (1737, V (Some [(s8, e116)]) (Some [(s8, e13)]) (Some [(s8, e123)]) ([(s8, v12)]) (Some [(s8, v12)]))
  ; (1738, V (Some [(s8, e114)]) (Some [(s8, e12)]) (Some [(s8, e122)]) ([(s8, v13)]) (Some [(s8, v13)]))
  ; (1739, V (Some [(s8, e114)]) (Some [(s8, e13)]) (Some [(s8, e122)]) ([(s8, v13)]) (Some [(s8, v13)]))
  ; (1740, V (Some [(s8, e116)]) (Some [(s8, e12)]) (Some [(s8, e122)]) ([(s8, v13)]) (Some [(s8, v13)]))
  ; (1741, V (Some [(s8, e116)]) (Some [(s8, e13)]) (Some [(s8, e123)]) ([(s8, v13)]) (Some [(s8, v13)]))
  ; (1742, V (Some [(s8, e114)]) (Some [(s8, e12)]) (Some [(s8, e122)]) ([(s8, v6)]) (Some [(s8, v8)]))
  ; (1743, V (Some [(s8, e114)]) (Some [(s8, e13)]) (Some [(s8, e122)]) ([(s8, v6)]) (Some [(s8, v8)]))
  ; (1744, V (Some [(s8, e116)]) (Some [(s8, e12)]) (Some [(s8, e122)]) ([(s8, v6)]) (Some [(s8, v8)]))
  ; (1745, V (Some [(s8, e116)]) (Some [(s8, e13)]) (Some [(s8, e123)]) ([(s8, v6)]) (Some [(s8, v8)]))
  ; (1746, V (Some [(s8, e114)]) (Some [(s8, e12)]) (Some [(s8, e122)]) ([]) (Some [(s8, v8)]))
  ; (1747, V (Some [(s8, e114)]) (Some [(s8, e13)]) (Some [(s8, e122)]) ([]) (Some [(s8, v8)]))
  ; (1748, V (Some [(s8, e116)]) (Some [(s8, e12)]) (Some [(s8, e122)]) ([]) (Some [(s8, v8)]))
  ; (1749, V (Some [(s8, e116)]) (Some [(s8, e13)]) (Some [(s8, e123)]) ([]) (Some [(s8, v8)]))
  ; (1750, V (Some [(s8, e114)]) (Some [(s8, e14)]) (Some [(s8, e124)]) ([(s8, v8)]) (Some [(s8, v12)]))
  ; (1751, V (Some [(s8, e114)]) (Some [(s8, e15)]) (Some [(s8, e124)]) ([(s8, v8)]) (Some [(s8, v12)]))
  ; (1752, V (Some [(s8, e116)]) (Some [(s8, e14)]) (Some [(s8, e124)]) ([(s8, v8)]) (Some [(s8, v12)]))
  ; (1753, V (Some [(s8, e116)]) (Some [(s8, e15)]) (Some [(s8, e125)]) ([(s8, v8)]) (Some [(s8, v12)]))
  ; (1754, V (Some [(s8, e114)]) (Some [(s8, e14)]) (Some [(s8, e124)]) ([(s8, v10)]) (Some [(s8, v20)]))
  ; (1755, V (Some [(s8, e114)]) (Some [(s8, e15)]) (Some [(s8, e124)]) ([(s8, v10)]) (Some [(s8, v20)]))
  ; (1756, V (Some [(s8, e116)]) (Some [(s8, e14)]) (Some [(s8, e124)]) ([(s8, v10)]) (Some [(s8, v20)]))
  ; (1757, V (Some [(s8, e116)]) (Some [(s8, e15)]) (Some [(s8, e125)]) ([(s8, v10)]) (Some [(s8, v20)]))
  ; (1758, V (Some [(s8, e114)]) (Some [(s8, e14)]) (Some [(s8, e124)]) ([(s8, v12)]) (Some [(s8, v12)]))
  ; (1759, V (Some [(s8, e114)]) (Some [(s8, e15)]) (Some [(s8, e124)]) ([(s8, v12)]) (Some [(s8, v12)]))
  ; (1760, V (Some [(s8, e116)]) (Some [(s8, e14)]) (Some [(s8, e124)]) ([(s8, v12)]) (Some [(s8, v12)]))
  ; (1761, V (Some [(s8, e116)]) (Some [(s8, e15)]) (Some [(s8, e125)]) ([(s8, v12)]) (Some [(s8, v12)]))
  ; (1762, V (Some [(s8, e114)]) (Some [(s8, e14)]) (Some [(s8, e124)]) ([(s8, v13)]) (Some [(s8, v21)]))
  ; (1763, V (Some [(s8, e114)]) (Some [(s8, e15)]) (Some [(s8, e124)]) ([(s8, v13)]) (Some [(s8, v21)]))
  ; (1764, V (Some [(s8, e116)]) (Some [(s8, e14)]) (Some [(s8, e124)]) ([(s8, v13)]) (Some [(s8, v21)]))
  ; (1765, V (Some [(s8, e116)]) (Some [(s8, e15)]) (Some [(s8, e125)]) ([(s8, v13)]) (Some [(s8, v21)]))
  ; (1766, V (Some [(s8, e114)]) (Some [(s8, e14)]) (Some [(s8, e124)]) ([(s8, v6)]) (Some [(s8, v12)]))
  ; (1767, V (Some [(s8, e114)]) (Some [(s8, e15)]) (Some [(s8, e124)]) ([(s8, v6)]) (Some [(s8, v12)]))
  ; (1768, V (Some [(s8, e116)]) (Some [(s8, e14)]) (Some [(s8, e124)]) ([(s8, v6)]) (Some [(s8, v12)]))
  ; (1769, V (Some [(s8, e116)]) (Some [(s8, e15)]) (Some [(s8, e125)]) ([(s8, v6)]) (Some [(s8, v12)]))
  ; (1770, V (Some [(s8, e114)]) (Some [(s8, e14)]) (Some [(s8, e124)]) ([]) (Some [(s8, v12)]))
  ; (1771, V (Some [(s8, e114)]) (Some [(s8, e15)]) (Some [(s8, e124)]) ([]) (Some [(s8, v12)]))
  ; (1772, V (Some [(s8, e116)]) (Some [(s8, e14)]) (Some [(s8, e124)]) ([]) (Some [(s8, v12)]))
  ; (1773, V (Some [(s8, e116)]) (Some [(s8, e15)]) (Some [(s8, e125)]) ([]) (Some [(s8, v12)]))
  ; (1774, V (Some [(s8, e46)]) (Some [(s8, e14)]) (Some [(s8, e126)]) ([(s8, v8)]) (Some [(s8, v12)]))
  ; (1775, V (Some [(s8, e46)]) (Some [(s8, e15)]) (Some [(s8, e126)]) ([(s8, v8)]) (Some [(s8, v12)]))
  ; (1776, V (Some [(s8, e47)]) (Some [(s8, e14)]) (Some [(s8, e126)]) ([(s8, v8)]) (Some [(s8, v12)]))
  ; (1777, V (Some [(s8, e47)]) (Some [(s8, e15)]) (Some [(s8, e127)]) ([(s8, v8)]) (Some [(s8, v12)]))
  ; (1778, V (Some [(s8, e46)]) (Some [(s8, e14)]) (Some [(s8, e126)]) ([(s8, v10)]) (Some [(s8, v20)]))
  ; (1779, V (Some [(s8, e46)]) (Some [(s8, e15)]) (Some [(s8, e126)]) ([(s8, v10)]) (Some [(s8, v20)]))
  ; (1780, V (Some [(s8, e47)]) (Some [(s8, e14)]) (Some [(s8, e126)]) ([(s8, v10)]) (Some [(s8, v20)]))
  ; (1781, V (Some [(s8, e47)]) (Some [(s8, e15)]) (Some [(s8, e127)]) ([(s8, v10)]) (Some [(s8, v20)]))
  ; (1782, V (Some [(s8, e46)]) (Some [(s8, e14)]) (Some [(s8, e126)]) ([(s8, v12)]) (Some [(s8, v12)]))
  ; (1783, V (Some [(s8, e46)]) (Some [(s8, e15)]) (Some [(s8, e126)]) ([(s8, v12)]) (Some [(s8, v12)]))
  ; (1784, V (Some [(s8, e47)]) (Some [(s8, e14)]) (Some [(s8, e126)]) ([(s8, v12)]) (Some [(s8, v12)]))
  ; (1785, V (Some [(s8, e47)]) (Some [(s8, e15)]) (Some [(s8, e127)]) ([(s8, v12)]) (Some [(s8, v12)]))
  ; (1786, V (Some [(s8, e46)]) (Some [(s8, e14)]) (Some [(s8, e126)]) ([(s8, v13)]) (Some [(s8, v21)]))
  ; (1787, V (Some [(s8, e46)]) (Some [(s8, e15)]) (Some [(s8, e126)]) ([(s8, v13)]) (Some [(s8, v21)]))
  ; (1788, V (Some [(s8, e47)]) (Some [(s8, e14)]) (Some [(s8, e126)]) ([(s8, v13)]) (Some [(s8, v21)]))
  ; (1789, V (Some [(s8, e47)]) (Some [(s8, e15)]) (Some [(s8, e127)]) ([(s8, v13)]) (Some [(s8, v21)]))
  ; (1790, V (Some [(s8, e46)]) (Some [(s8, e14)]) (Some [(s8, e126)]) ([(s8, v6)]) (Some [(s8, v12)]))
  ; (1791, V (Some [(s8, e46)]) (Some [(s8, e15)]) (Some [(s8, e126)]) ([(s8, v6)]) (Some [(s8, v12)]))
  ; (1792, V (Some [(s8, e47)]) (Some [(s8, e14)]) (Some [(s8, e126)]) ([(s8, v6)]) (Some [(s8, v12)]))
  ; (1793, V (Some [(s8, e47)]) (Some [(s8, e15)]) (Some [(s8, e127)]) ([(s8, v6)]) (Some [(s8, v12)]))
  ; (1794, V (Some [(s8, e46)]) (Some [(s8, e14)]) (Some [(s8, e126)]) ([]) (Some [(s8, v12)]))
  ; (1795, V (Some [(s8, e46)]) (Some [(s8, e15)]) (Some [(s8, e126)]) ([]) (Some [(s8, v12)]))
  ; (1796, V (Some [(s8, e47)]) (Some [(s8, e14)]) (Some [(s8, e126)]) ([]) (Some [(s8, v12)]))
  ; (1797, V (Some [(s8, e47)]) (Some [(s8, e15)]) (Some [(s8, e127)]) ([]) (Some [(s8, v12)]))
  ; (1798, V (Some [(s8, e114)]) (Some [(s8, e21)]) (Some [(s8, e128)]) ([(s8, v8)]) (Some [(s8, v8)]))
  ; (1799, V (Some [(s8, e114)]) (Some [(s8, e23)]) (Some [(s8, e128)]) ([(s8, v8)]) (Some [(s8, v8)]))
  ; (1800, V (Some [(s8, e116)]) (Some [(s8, e21)]) (Some [(s8, e128)]) ([(s8, v8)]) (Some [(s8, v8)]))
  ; (1801, V (Some [(s8, e116)]) (Some [(s8, e23)]) (Some [(s8, e129)]) ([(s8, v8)]) (Some [(s8, v8)]))
  ; (1802, V (Some [(s8, e114)]) (Some [(s8, e21)]) (Some [(s8, e128)]) ([(s8, v10)]) (Some [(s8, v10)]))
  ; (1803, V (Some [(s8, e114)]) (Some [(s8, e23)]) (Some [(s8, e128)]) ([(s8, v10)]) (Some [(s8, v10)]))
  ; (1804, V (Some [(s8, e116)]) (Some [(s8, e21)]) (Some [(s8, e128)]) ([(s8, v10)]) (Some [(s8, v10)]))
  ; (1805, V (Some [(s8, e116)]) (Some [(s8, e23)]) (Some [(s8, e129)]) ([(s8, v10)]) (Some [(s8, v10)]))
  ; (1806, V (Some [(s8, e114)]) (Some [(s8, e21)]) (Some [(s8, e128)]) ([(s8, v12)]) (Some [(s8, v12)]))
  ; (1807, V (Some [(s8, e114)]) (Some [(s8, e23)]) (Some [(s8, e128)]) ([(s8, v12)]) (Some [(s8, v12)]))
  ; (1808, V (Some [(s8, e116)]) (Some [(s8, e21)]) (Some [(s8, e128)]) ([(s8, v12)]) (Some [(s8, v12)]))
  ; (1809, V (Some [(s8, e116)]) (Some [(s8, e23)]) (Some [(s8, e129)]) ([(s8, v12)]) (Some [(s8, v12)]))
  ; (1810, V (Some [(s8, e114)]) (Some [(s8, e21)]) (Some [(s8, e128)]) ([(s8, v13)]) (Some [(s8, v13)]))
  ; (1811, V (Some [(s8, e114)]) (Some [(s8, e23)]) (Some [(s8, e128)]) ([(s8, v13)]) (Some [(s8, v13)]))
  ; (1812, V (Some [(s8, e116)]) (Some [(s8, e21)]) (Some [(s8, e128)]) ([(s8, v13)]) (Some [(s8, v13)]))
  ; (1813, V (Some [(s8, e116)]) (Some [(s8, e23)]) (Some [(s8, e129)]) ([(s8, v13)]) (Some [(s8, v13)]))
  ; (1814, V (Some [(s8, e114)]) (Some [(s8, e21)]) (Some [(s8, e128)]) ([(s8, v6)]) (Some [(s8, v6)]))
  ; (1815, V (Some [(s8, e114)]) (Some [(s8, e23)]) (Some [(s8, e128)]) ([(s8, v6)]) (Some [(s8, v6)]))
  ; (1816, V (Some [(s8, e116)]) (Some [(s8, e21)]) (Some [(s8, e128)]) ([(s8, v6)]) (Some [(s8, v6)]))
  ; (1817, V (Some [(s8, e116)]) (Some [(s8, e23)]) (Some [(s8, e129)]) ([(s8, v6)]) (Some [(s8, v6)]))
  ; (1818, V (Some [(s8, e114)]) (Some [(s8, e21)]) (Some [(s8, e128)]) ([]) (Some [(s8, v8)]))
  ; (1819, V (Some [(s8, e114)]) (Some [(s8, e23)]) (Some [(s8, e128)]) ([]) (Some [(s8, v8)]))
  ; (1820, V (Some [(s8, e116)]) (Some [(s8, e21)]) (Some [(s8, e128)]) ([]) (Some [(s8, v8)]))
  ; (1821, V (Some [(s8, e116)]) (Some [(s8, e23)]) (Some [(s8, e129)]) ([]) (Some [(s8, v8)]))
  ; (1822, V (Some [(s8, e114)]) (Some [(s8, e25)]) (Some [(s8, e130)]) ([(s8, v8)]) (Some [(s8, v8)]))
  ; (1823, V (Some [(s8, e114)]) (Some [(s8, e27)]) (Some [(s8, e130)]) ([(s8, v8)]) (Some [(s8, v8)]))
  ; (1824, V (Some [(s8, e116)]) (Some [(s8, e25)]) (Some [(s8, e130)]) ([(s8, v8)]) (Some [(s8, v8)]))
  ; (1825, V (Some [(s8, e116)]) (Some [(s8, e27)]) (Some [(s8, e131)]) ([(s8, v8)]) (Some [(s8, v8)]))
  ; (1826, V (Some [(s8, e114)]) (Some [(s8, e25)]) (Some [(s8, e130)]) ([(s8, v10)]) (Some [(s8, v10)]))
  ; (1827, V (Some [(s8, e114)]) (Some [(s8, e27)]) (Some [(s8, e130)]) ([(s8, v10)]) (Some [(s8, v10)]))
  ; (1828, V (Some [(s8, e116)]) (Some [(s8, e25)]) (Some [(s8, e130)]) ([(s8, v10)]) (Some [(s8, v10)]))
  ; (1829, V (Some [(s8, e116)]) (Some [(s8, e27)]) (Some [(s8, e131)]) ([(s8, v10)]) (Some [(s8, v10)]))
  ; (1830, V (Some [(s8, e114)]) (Some [(s8, e25)]) (Some [(s8, e130)]) ([(s8, v12)]) (Some [(s8, v12)]))
  ; (1831, V (Some [(s8, e114)]) (Some [(s8, e27)]) (Some [(s8, e130)]) ([(s8, v12)]) (Some [(s8, v12)]))
  ; (1832, V (Some [(s8, e116)]) (Some [(s8, e25)]) (Some [(s8, e130)]) ([(s8, v12)]) (Some [(s8, v12)]))
  ; (1833, V (Some [(s8, e116)]) (Some [(s8, e27)]) (Some [(s8, e131)]) ([(s8, v12)]) (Some [(s8, v12)]))
  ; (1834, V (Some [(s8, e114)]) (Some [(s8, e25)]) (Some [(s8, e130)]) ([(s8, v13)]) (Some [(s8, v13)]))
  ; (1835, V (Some [(s8, e114)]) (Some [(s8, e27)]) (Some [(s8, e130)]) ([(s8, v13)]) (Some [(s8, v13)]))
  ; (1836, V (Some [(s8, e116)]) (Some [(s8, e25)]) (Some [(s8, e130)]) ([(s8, v13)]) (Some [(s8, v13)]))
  ; (1837, V (Some [(s8, e116)]) (Some [(s8, e27)]) (Some [(s8, e131)]) ([(s8, v13)]) (Some [(s8, v13)]))
  ; (1838, V (Some [(s8, e114)]) (Some [(s8, e25)]) (Some [(s8, e130)]) ([(s8, v6)]) (Some [(s8, v6)]))
  ; (1839, V (Some [(s8, e114)]) (Some [(s8, e27)]) (Some [(s8, e130)]) ([(s8, v6)]) (Some [(s8, v6)]))
  ; (1840, V (Some [(s8, e116)]) (Some [(s8, e25)]) (Some [(s8, e130)]) ([(s8, v6)]) (Some [(s8, v6)]))
  ; (1841, V (Some [(s8, e116)]) (Some [(s8, e27)]) (Some [(s8, e131)]) ([(s8, v6)]) (Some [(s8, v6)]))
  ; (1842, V (Some [(s8, e114)]) (Some [(s8, e25)]) (Some [(s8, e130)]) ([]) (Some [(s8, v12)]))
  ; (1843, V (Some [(s8, e114)]) (Some [(s8, e27)]) (Some [(s8, e130)]) ([]) (Some [(s8, v12)]))
  ; (1844, V (Some [(s8, e116)]) (Some [(s8, e25)]) (Some [(s8, e130)]) ([]) (Some [(s8, v12)]))
  ; (1845, V (Some [(s8, e116)]) (Some [(s8, e27)]) (Some [(s8, e131)]) ([]) (Some [(s8, v12)]))
  ; (1846, V (Some [(s8, e46)]) (Some [(s8, e25)]) (Some [(s8, e132)]) ([(s8, v8)]) (Some [(s8, v8)]))
  ; (1847, V (Some [(s8, e46)]) (Some [(s8, e27)]) (Some [(s8, e132)]) ([(s8, v8)]) (Some [(s8, v8)]))
  ; (1848, V (Some [(s8, e47)]) (Some [(s8, e25)]) (Some [(s8, e132)]) ([(s8, v8)]) (Some [(s8, v8)]))
  ; (1849, V (Some [(s8, e47)]) (Some [(s8, e27)]) (Some [(s8, e133)]) ([(s8, v8)]) (Some [(s8, v8)]))
  ; (1850, V (Some [(s8, e46)]) (Some [(s8, e25)]) (Some [(s8, e132)]) ([(s8, v10)]) (None))
  ; (1851, V (Some [(s8, e46)]) (Some [(s8, e27)]) (Some [(s8, e132)]) ([(s8, v10)]) (None))
  ; (1852, V (Some [(s8, e47)]) (Some [(s8, e25)]) (Some [(s8, e132)]) ([(s8, v10)]) (None))
  ; (1853, V (Some [(s8, e47)]) (Some [(s8, e27)]) (Some [(s8, e133)]) ([(s8, v10)]) (None))
  ; (1854, V (Some [(s8, e46)]) (Some [(s8, e25)]) (Some [(s8, e132)]) ([(s8, v12)]) (Some [(s8, v12)]))
  ; (1855, V (Some [(s8, e46)]) (Some [(s8, e27)]) (Some [(s8, e132)]) ([(s8, v12)]) (Some [(s8, v12)]))
  ; (1856, V (Some [(s8, e47)]) (Some [(s8, e25)]) (Some [(s8, e132)]) ([(s8, v12)]) (Some [(s8, v12)]))
  ; (1857, V (Some [(s8, e47)]) (Some [(s8, e27)]) (Some [(s8, e133)]) ([(s8, v12)]) (Some [(s8, v12)]))
  ; (1858, V (Some [(s8, e46)]) (Some [(s8, e25)]) (Some [(s8, e132)]) ([(s8, v13)]) (Some [(s8, v13)]))
  ; (1859, V (Some [(s8, e46)]) (Some [(s8, e27)]) (Some [(s8, e132)]) ([(s8, v13)]) (Some [(s8, v13)]))
  ; (1860, V (Some [(s8, e47)]) (Some [(s8, e25)]) (Some [(s8, e132)]) ([(s8, v13)]) (Some [(s8, v13)]))
  ; (1861, V (Some [(s8, e47)]) (Some [(s8, e27)]) (Some [(s8, e133)]) ([(s8, v13)]) (Some [(s8, v13)]))
  ; (1862, V (Some [(s8, e46)]) (Some [(s8, e25)]) (Some [(s8, e132)]) ([(s8, v6)]) (None))
  ; (1863, V (Some [(s8, e46)]) (Some [(s8, e27)]) (Some [(s8, e132)]) ([(s8, v6)]) (None))
  ; (1864, V (Some [(s8, e47)]) (Some [(s8, e25)]) (Some [(s8, e132)]) ([(s8, v6)]) (None))
  ; (1865, V (Some [(s8, e47)]) (Some [(s8, e27)]) (Some [(s8, e133)]) ([(s8, v6)]) (None))
  ; (1866, V (Some [(s8, e46)]) (Some [(s8, e25)]) (Some [(s8, e132)]) ([]) (Some [(s8, v12)]))
  ; (1867, V (Some [(s8, e46)]) (Some [(s8, e27)]) (Some [(s8, e132)]) ([]) (Some [(s8, v12)]))
  ; (1868, V (Some [(s8, e47)]) (Some [(s8, e25)]) (Some [(s8, e132)]) ([]) (Some [(s8, v12)]))
  ; (1869, V (Some [(s8, e47)]) (Some [(s8, e27)]) (Some [(s8, e133)]) ([]) (Some [(s8, v12)]))
  ; (1870, V (Some [(s8, e114)]) (Some [(s8, e36)]) (Some [(s8, e134)]) ([(s8, v8)]) (Some [(s8, v8)]))
  ; (1871, V (Some [(s8, e114)]) (Some [(s8, e38)]) (Some [(s8, e134)]) ([(s8, v8)]) (Some [(s8, v8)]))
  ; (1872, V (Some [(s8, e116)]) (Some [(s8, e36)]) (Some [(s8, e134)]) ([(s8, v8)]) (Some [(s8, v8)]))
  ; (1873, V (Some [(s8, e116)]) (Some [(s8, e38)]) (Some [(s8, e135)]) ([(s8, v8)]) (Some [(s8, v8)]))
  ; (1874, V (Some [(s8, e114)]) (Some [(s8, e36)]) (Some [(s8, e134)]) ([(s8, v10)]) (Some [(s8, v6)]))
  ; (1875, V (Some [(s8, e114)]) (Some [(s8, e38)]) (Some [(s8, e134)]) ([(s8, v10)]) (Some [(s8, v6)]))
  ; (1876, V (Some [(s8, e116)]) (Some [(s8, e36)]) (Some [(s8, e134)]) ([(s8, v10)]) (Some [(s8, v6)]))
  ; (1877, V (Some [(s8, e116)]) (Some [(s8, e38)]) (Some [(s8, e135)]) ([(s8, v10)]) (Some [(s8, v6)]))
  ; (1878, V (Some [(s8, e114)]) (Some [(s8, e36)]) (Some [(s8, e134)]) ([(s8, v12)]) (Some [(s8, v8)]))
  ; (1879, V (Some [(s8, e114)]) (Some [(s8, e38)]) (Some [(s8, e134)]) ([(s8, v12)]) (Some [(s8, v8)]))
  ; (1880, V (Some [(s8, e116)]) (Some [(s8, e36)]) (Some [(s8, e134)]) ([(s8, v12)]) (Some [(s8, v8)])) ].
Definition vectors9 : list (nat * vector) :=
  [ (1881, V (Some [(s8, e116)]) (Some [(s8, e38)]) (Some [(s8, e135)]) ([(s8, v12)]) (Some [(s8, v8)]))
  ; (1882, V (Some [(s8, e114)]) (Some [(s8, e36)]) (Some [(s8, e134)]) ([(s8, v13)]) (Some [(s8, v8)]))
  ; (1883, V (Some [(s8, e114)]) (Some [(s8, e38)]) (Some [(s8, e134)]) ([(s8, v13)]) (Some [(s8, v8)]))
  ; (1884, V (Some [(s8, e116)]) (Some [(s8, e36)]) (Some [(s8, e134)]) ([(s8, v13)]) (Some [(s8, v8)]))
  ; (1885, V (Some [(s8, e116)]) (Some [(s8, e38)]) (Some [(s8, e135)]) ([(s8, v13)]) (Some [(s8, v8)]))
  ; (1886, V (Some [(s8, e114)]) (Some [(s8, e36)]) (Some [(s8, e134)]) ([(s8, v6)]) (Some [(s8, v6)]))
  ; (1887, V (Some [(s8, e114)]) (Some [(s8, e38)]) (Some [(s8, e134)]) ([(s8, v6)]) (Some [(s8, v6)]))
  ; (1888, V (Some [(s8, e116)]) (Some [(s8, e36)]) (Some [(s8, e134)]) ([(s8, v6)]) (Some [(s8, v6)]))
  ; (1889, V (Some [(s8, e116)]) (Some [(s8, e38)]) (Some [(s8, e135)]) ([(s8, v6)]) (Some [(s8, v6)]))
  ; (1890, V (Some [(s8, e114)]) (Some [(s8, e36)]) (Some [(s8, e134)]) ([]) (None))
  ; (1891, V (Some [(s8, e114)]) (Some [(s8, e38)]) (Some [(s8, e134)]) ([]) (None))
  ; (1892, V (Some [(s8, e116)]) (Some [(s8, e36)]) (Some [(s8, e134)]) ([]) (None))
  ; (1893, V (Some [(s8, e116)]) (Some [(s8, e38)]) (Some [(s8, e135)]) ([]) (Some []))
  ; (1894, V (Some [(s8, e114)]) (Some [(s8, e40)]) (Some [(s8, e136)]) ([(s8, v8)]) (Some [(s8, v8)]))
  ; (1895, V (Some [(s8, e114)]) (Some [(s8, e42)]) (Some [(s8, e136)]) ([(s8, v8)]) (Some [(s8, v8)]))
  ; (1896, V (Some [(s8, e116)]) (Some [(s8, e40)]) (Some [(s8, e136)]) ([(s8, v8)]) (Some [(s8, v8)]))
  ; (1897, V (Some [(s8, e116)]) (Some [(s8, e42)]) (Some [(s8, e137)]) ([(s8, v8)]) (Some [(s8, v8)]))
  ; (1898, V (Some [(s8, e114)]) (Some [(s8, e40)]) (Some [(s8, e136)]) ([(s8, v10)]) (Some [(s8, v6)]))
  ; (1899, V (Some [(s8, e114)]) (Some [(s8, e42)]) (Some [(s8, e136)]) ([(s8, v10)]) (Some [(s8, v6)]))
  ; (1900, V (Some [(s8, e116)]) (Some [(s8, e40)]) (Some [(s8, e136)]) ([(s8, v10)]) (Some [(s8, v6)]))
  ; (1901, V (Some [(s8, e116)]) (Some [(s8, e42)]) (Some [(s8, e137)]) ([(s8, v10)]) (Some [(s8, v6)]))
  ; (1902, V (Some [(s8, e114)]) (Some [(s8, e40)]) (Some [(s8, e136)]) ([(s8, v12)]) (Some [(s8, v12)]))
  ; (1903, V (Some [(s8, e114)]) (Some [(s8, e42)]) (Some [(s8, e136)]) ([(s8, v12)]) (Some [(s8, v12)]))
  ; (1904, V (Some [(s8, e116)]) (Some [(s8, e40)]) (Some [(s8, e136)]) ([(s8, v12)]) (Some [(s8, v12)]))
  ; (1905, V (Some [(s8, e116)]) (Some [(s8, e42)]) (Some [(s8, e137)]) ([(s8, v12)]) (Some [(s8, v12)]))
  ; (1906, V (Some [(s8, e114)]) (Some [(s8, e40)]) (Some [(s8, e136)]) ([(s8, v13)]) (Some [(s8, v8)]))
  ; (1907, V (Some [(s8, e114)]) (Some [(s8, e42)]) (Some [(s8, e136)]) ([(s8, v13)]) (Some [(s8, v8)]))
  ; (1908, V (Some [(s8, e116)]) (Some [(s8, e40)]) (Some [(s8, e136)]) ([(s8, v13)]) (Some [(s8, v8)]))
  ; (1909, V (Some [(s8, e116)]) (Some [(s8, e42)]) (Some [(s8, e137)]) ([(s8, v13)]) (Some [(s8, v8)]))
  ; (1910, V (Some [(s8, e114)]) (Some [(s8, e40)]) (Some [(s8, e136)]) ([(s8, v6)]) (Some [(s8, v6)]))
  ; (1911, V (Some [(s8, e114)]) (Some [(s8, e42)]) (Some [(s8, e136)]) ([(s8, v6)]) (Some [(s8, v6)]))
  ; (1912, V (Some [(s8, e116)]) (Some [(s8, e40)]) (Some [(s8, e136)]) ([(s8, v6)]) (Some [(s8, v6)]))
  ; (1913, V (Some [(s8, e116)]) (Some [(s8, e42)]) (Some [(s8, e137)]) ([(s8, v6)]) (Some [(s8, v6)]))
  ; (1914, V (Some [(s8, e114)]) (Some [(s8, e40)]) (Some [(s8, e136)]) ([]) (None))
  ; (1915, V (Some [(s8, e114)]) (Some [(s8, e42)]) (Some [(s8, e136)]) ([]) (None))
  ; (1916, V (Some [(s8, e116)]) (Some [(s8, e40)]) (Some [(s8, e136)]) ([]) (None))
  ; (1917, V (Some [(s8, e116)]) (Some [(s8, e42)]) (Some [(s8, e137)]) ([]) (Some []))
  ; (1918, V (Some [(s8, e46)]) (Some [(s8, e40)]) (Some [(s8, e138)]) ([(s8, v8)]) (Some [(s8, v8)]))
  ; (1919, V (Some [(s8, e46)]) (Some [(s8, e42)]) (Some [(s8, e138)]) ([(s8, v8)]) (Some [(s8, v8)]))
  ; (1920, V (Some [(s8, e47)]) (Some [(s8, e40)]) (Some [(s8, e138)]) ([(s8, v8)]) (Some [(s8, v8)]))
  ; (1921, V (Some [(s8, e47)]) (Some [(s8, e42)]) (Some [(s8, e139)]) ([(s8, v8)]) (Some [(s8, v8)]))
  ; (1922, V (Some [(s8, e46)]) (Some [(s8, e40)]) (Some [(s8, e138)]) ([(s8, v10)]) (None))
  ; (1923, V (Some [(s8, e46)]) (Some [(s8, e42)]) (Some [(s8, e138)]) ([(s8, v10)]) (None))
  ; (1924, V (Some [(s8, e47)]) (Some [(s8, e40)]) (Some [(s8, e138)]) ([(s8, v10)]) (None))
  ; (1925, V (Some [(s8, e47)]) (Some [(s8, e42)]) (Some [(s8, e139)]) ([(s8, v10)]) (None))
  ; (1926, V (Some [(s8, e46)]) (Some [(s8, e40)]) (Some [(s8, e138)]) ([(s8, v12)]) (Some [(s8, v12)]))
  ; (1927, V (Some [(s8, e46)]) (Some [(s8, e42)]) (Some [(s8, e138)]) ([(s8, v12)]) (Some [(s8, v12)]))
  ; (1928, V (Some [(s8, e47)]) (Some [(s8, e40)]) (Some [(s8, e138)]) ([(s8, v12)]) (Some [(s8, v12)]))
  ; (1929, V (Some [(s8, e47)]) (Some [(s8, e42)]) (Some [(s8, e139)]) ([(s8, v12)]) (Some [(s8, v12)]))
  ; (1930, V (Some [(s8, e46)]) (Some [(s8, e40)]) (Some [(s8, e138)]) ([(s8, v13)]) (Some [(s8, v8)]))
  ; (1931, V (Some [(s8, e46)]) (Some [(s8, e42)]) (Some [(s8, e138)]) ([(s8, v13)]) (Some [(s8, v8)]))
  ; (1932, V (Some [(s8, e47)]) (Some [(s8, e40)]) (Some [(s8, e138)]) ([(s8, v13)]) (Some [(s8, v8)]))
  ; (1933, V (Some [(s8, e47)]) (Some [(s8, e42)]) (Some [(s8, e139)]) ([(s8, v13)]) (Some [(s8, v8)]))
  ; (1934, V (Some [(s8, e46)]) (Some [(s8, e40)]) (Some [(s8, e138)]) ([(s8, v6)]) (None))
  ; (1935, V (Some [(s8, e46)]) (Some [(s8, e42)]) (Some [(s8, e138)]) ([(s8, v6)]) (None))
  ; (1936, V (Some [(s8, e47)]) (Some [(s8, e40)]) (Some [(s8, e138)]) ([(s8, v6)]) (None))
  ; (1937, V (Some [(s8, e47)]) (Some [(s8, e42)]) (Some [(s8, e139)]) ([(s8, v6)]) (None))
  ; (1938, V (Some [(s8, e46)]) (Some [(s8, e40)]) (Some [(s8, e138)]) ([]) (None))
  ; (1939, V (Some [(s8, e46)]) (Some [(s8, e42)]) (Some [(s8, e138)]) ([]) (None))
  ; (1940, V (Some [(s8, e47)]) (Some [(s8, e40)]) (Some [(s8, e138)]) ([]) (None))
  ; (1941, V (Some [(s8, e47)]) (Some [(s8, e42)]) (Some [(s8, e139)]) ([]) (Some []))
  ; (1942, V (Some [(s8, e114)]) (Some [(s8, e46)]) (Some [(s8, e46)]) ([(s8, v8)]) (Some [(s8, v8)]))
  ; (1943, V (Some [(s8, e114)]) (Some [(s8, e47)]) (Some [(s8, e46)]) ([(s8, v8)]) (Some [(s8, v8)]))
  ; (1944, V (Some [(s8, e116)]) (Some [(s8, e46)]) (Some [(s8, e46)]) ([(s8, v8)]) (Some [(s8, v8)]))
  ; (1945, V (Some [(s8, e116)]) (Some [(s8, e47)]) (Some [(s8, e47)]) ([(s8, v8)]) (Some [(s8, v8)]))
  ; (1946, V (Some [(s8, e114)]) (Some [(s8, e46)]) (Some [(s8, e46)]) ([(s8, v10)]) (None))
  ; (1947, V (Some [(s8, e114)]) (Some [(s8, e47)]) (Some [(s8, e46)]) ([(s8, v10)]) (None))
  ; (1948, V (Some [(s8, e116)]) (Some [(s8, e46)]) (Some [(s8, e46)]) ([(s8, v10)]) (None))
  ; (1949, V (Some [(s8, e116)]) (Some [(s8, e47)]) (Some [(s8, e47)]) ([(s8, v10)]) (None))
  ; (1950, V (Some [(s8, e114)]) (Some [(s8, e46)]) (Some [(s8, e46)]) ([(s8, v12)]) (Some [(s8, v12)]))
  ; (1951, V (Some [(s8, e114)]) (Some [(s8, e47)]) (Some [(s8, e46)]) ([(s8, v12)]) (Some [(s8, v12)]))
  ; (1952, V (Some [(s8, e116)]) (Some [(s8, e46)]) (Some [(s8, e46)]) ([(s8, v12)]) (Some [(s8, v12)]))
  ; (1953, V (Some [(s8, e116)]) (Some [(s8, e47)]) (Some [(s8, e47)]) ([(s8, v12)]) (Some [(s8, v12)]))
  ; (1954, V (Some [(s8, e114)]) (Some [(s8, e46)]) (Some [(s8, e46)]) ([(s8, v13)]) (Some [(s8, v13)]))
  ; (1955, V (Some [(s8, e114)]) (Some [(s8, e47)]) (Some [(s8, e46)]) ([(s8, v13)]) (Some [(s8, v13)]))
  ; (1956, V (Some [(s8, e116)]) (Some [(s8, e46)]) (Some [(s8, e46)]) ([(s8, v13)]) (Some [(s8, v13)]))
  ; (1957, V (Some [(s8, e116)]) (Some [(s8, e47)]) (Some [(s8, e47)]) ([(s8, v13)]) (Some [(s8, v13)]))
  ; (1958, V (Some [(s8, e114)]) (Some [(s8, e46)]) (Some [(s8, e46)]) ([(s8, v6)]) (None))
  ; (1959, V (Some [(s8, e114)]) (Some [(s8, e47)]) (Some [(s8, e46)]) ([(s8, v6)]) (None))
  ; (1960, V (Some [(s8, e116)]) (Some [(s8, e46)]) (Some [(s8, e46)]) ([(s8, v6)]) (None))
  ; (1961, V (Some [(s8, e116)]) (Some [(s8, e47)]) (Some [(s8, e47)]) ([(s8, v6)]) (None))
  ; (1962, V (Some [(s8, e114)]) (Some [(s8, e46)]) (Some [(s8, e46)]) ([]) (None))
  ; (1963, V (Some [(s8, e114)]) (Some [(s8, e47)]) (Some [(s8, e46)]) ([]) (None))
  ; (1964, V (Some [(s8, e116)]) (Some [(s8, e46)]) (Some [(s8, e46)]) ([]) (None))
  ; (1965, V (Some [(s8, e116)]) (Some [(s8, e47)]) (Some [(s8, e47)]) ([]) (Some []))
  ; (1966, V (Some [(s8, e114)]) (Some [(s8, e48)]) (Some [(s8, e48)]) ([(s8, v8)]) (None))
  ; (1967, V (Some [(s8, e114)]) (Some [(s8, e49)]) (Some [(s8, e48)]) ([(s8, v8)]) (None))
  ; (1968, V (Some [(s8, e116)]) (Some [(s8, e48)]) (Some [(s8, e48)]) ([(s8, v8)]) (None))
  ; (1969, V (Some [(s8, e116)]) (Some [(s8, e49)]) (Some [(s8, e49)]) ([(s8, v8)]) (None))
  ; (1970, V (Some [(s8, e114)]) (Some [(s8, e48)]) (Some [(s8, e48)]) ([(s8, v10)]) (None))
  ; (1971, V (Some [(s8, e114)]) (Some [(s8, e49)]) (Some [(s8, e48)]) ([(s8, v10)]) (None))
  ; (1972, V (Some [(s8, e116)]) (Some [(s8, e48)]) (Some [(s8, e48)]) ([(s8, v10)]) (None))
  ; (1973, V (Some [(s8, e116)]) (Some [(s8, e49)]) (Some [(s8, e49)]) ([(s8, v10)]) (None))
  ; (1974, V (Some [(s8, e114)]) (Some [(s8, e48)]) (Some [(s8, e48)]) ([(s8, v12)]) (Some [(s8, v12)]))
  ; (1975, V (Some [(s8, e114)]) (Some [(s8, e49)]) (Some [(s8, e48)]) ([(s8, v12)]) (Some [(s8, v12)]))
  ; (1976, V (Some [(s8, e116)]) (Some [(s8, e48)]) (Some [(s8, e48)]) ([(s8, v12)]) (Some [(s8, v12)]))
  ; (1977, V (Some [(s8, e116)]) (Some [(s8, e49)]) (Some [(s8, e49)]) ([(s8, v12)]) (Some [(s8, v12)]))
  ; (1978, V (Some [(s8, e114)]) (Some [(s8, e48)]) (Some [(s8, e48)]) ([(s8, v13)]) (None))
  ; (1979, V (Some [(s8, e114)]) (Some [(s8, e49)]) (Some [(s8, e48)]) ([(s8, v13)]) (None))
  ; (1980, V (Some [(s8, e116)]) (Some [(s8, e48)]) (Some [(s8, e48)]) ([(s8, v13)]) (None))
  ; (1981, V (Some [(s8, e116)]) (Some [(s8, e49)]) (Some [(s8, e49)]) ([(s8, v13)]) (None))
  ; (1982, V (Some [(s8, e114)]) (Some [(s8, e48)]) (Some [(s8, e48)]) ([(s8, v6)]) (None))
  ; (1983, V (Some [(s8, e114)]) (Some [(s8, e49)]) (Some [(s8, e48)]) ([(s8, v6)]) (None))
  ; (1984, V (Some [(s8, e116)]) (Some [(s8, e48)]) (Some [(s8, e48)]) ([(s8, v6)]) (None))
  ; (1985, V (Some [(s8, e116)]) (Some [(s8, e49)]) (Some [(s8, e49)]) ([(s8, v6)]) (None))
  ; (1986, V (Some [(s8, e114)]) (Some [(s8, e48)]) (Some [(s8, e48)]) ([]) (None))
  ; (1987, V (Some [(s8, e114)]) (Some [(s8, e49)]) (Some [(s8, e48)]) ([]) (None))
  ; (1988, V (Some [(s8, e116)]) (Some [(s8, e48)]) (Some [(s8, e48)]) ([]) (None))
  ; (1989, V (Some [(s8, e116)]) (Some [(s8, e49)]) (Some [(s8, e49)]) ([]) (Some []))
  ; (1990, V (Some [(s8, e46)]) (Some [(s8, e48)]) (Some [(s8, e48)]) ([(s8, v8)]) (None))
  ; (1991, V (Some [(s8, e46)]) (Some [(s8, e49)]) (Some [(s8, e48)]) ([(s8, v8)]) (None))
  ; (1992, V (Some [(s8, e47)]) (Some [(s8, e48)]) (Some [(s8, e48)]) ([(s8, v8)]) (None))
  ; (1993, V (Some [(s8, e47)]) (Some [(s8, e49)]) (Some [(s8, e49)]) ([(s8, v8)]) (None))
  ; (1994, V (Some [(s8, e46)]) (Some [(s8, e48)]) (Some [(s8, e48)]) ([(s8, v10)]) (None))
  ; (1995, V (Some [(s8, e46)]) (Some [(s8, e49)]) (Some [(s8, e48)]) ([(s8, v10)]) (None))
  ; (1996, V (Some [(s8, e47)]) (Some [(s8, e48)]) (Some [(s8, e48)]) ([(s8, v10)]) (None))
  ; (1997, V (Some [(s8, e47)]) (Some [(s8, e49)]) (Some [(s8, e49)]) ([(s8, v10)]) (None))
  ; (1998, V (Some [(s8, e46)]) (Some [(s8, e48)]) (Some [(s8, e48)]) ([(s8, v12)]) (Some [(s8, v12)]))
  ; (1999, V (Some [(s8, e46)]) (Some [(s8, e49)]) (Some [(s8, e48)]) ([(s8, v12)]) (Some [(s8, v12)]))
  ; (2000, V (Some [(s8, e47)]) (Some [(s8, e48)]) (Some [(s8, e48)]) ([(s8, v12)]) (Some [(s8, v12)]))
  ; (2001, V (Some [(s8, e47)]) (Some [(s8, e49)]) (Some [(s8, e49)]) ([(s8, v12)]) (Some [(s8, v12)]))
  ; (2002, V (Some [(s8, e46)]) (Some [(s8, e48)]) (Some [(s8, e48)]) ([(s8, v13)]) (None))
  ; (2003, V (Some [(s8, e46)]) (Some [(s8, e49)]) (Some [(s8, e48)]) ([(s8, v13)]) (None))
  ; (2004, V (Some [(s8, e47)]) (Some [(s8, e48)]) (Some [(s8, e48)]) ([(s8, v13)]) (None))
  ; (2005, V (Some [(s8, e47)]) (Some [(s8, e49)]) (Some [(s8, e49)]) ([(s8, v13)]) (None))
  ; (2006, V (Some [(s8, e46)]) (Some [(s8, e48)]) (Some [(s8, e48)]) ([(s8, v6)]) (None))
  ; (2007, V (Some [(s8, e46)]) (Some [(s8, e49)]) (Some [(s8, e48)]) ([(s8, v6)]) (None))
  ; (2008, V (Some [(s8, e47)]) (Some [(s8, e48)]) (Some [(s8, e48)]) ([(s8, v6)]) (None))
  ; (2009, V (Some [(s8, e47)]) (Some [(s8, e49)]) (Some [(s8, e49)]) ([(s8, v6)]) (None))
  ; (2010, V (Some [(s8, e46)]) (Some [(s8, e48)]) (Some [(s8, e48)]) ([]) (None))
  ; (2011, V (Some [(s8, e46)]) (Some [(s8, e49)]) (Some [(s8, e48)]) ([]) (None))
  ; (2012, V (Some [(s8, e47)]) (Some [(s8, e48)]) (Some [(s8, e48)]) ([]) (None))
  ; (2013, V (Some [(s8, e47)]) (Some [(s8, e49)]) (Some [(s8, e49)]) ([]) (Some []))
  ; (2014, V (Some [(s5, e2)]) (Some [(s5, e140)]) (None) ([(s5, v4)]) (None))
  ; (2015, V (Some [(s5, e2)]) (Some [(s5, e140)]) (None) ([(s5, v5)]) (None))
  ; (2016, V (Some [(s5, e2)]) (Some [(s5, e140)]) (None) ([]) (None))
  ; (2017, V (Some [(s5, e2)]) (Some [(s5, e141)]) (Some [(s5, e142)]) ([(s5, v4)]) (Some []))
  ; (2018, V (Some [(s5, e2)]) (Some [(s5, e141)]) (Some [(s5, e142)]) ([(s5, v5)]) (Some []))
  ; (2019, V (Some [(s5, e2)]) (Some [(s5, e141)]) (Some [(s5, e142)]) ([]) (Some [])) ].
Definition vectors : list (nat * vector) := List.concat [vectors0; vectors1; vectors2; vectors3; vectors4; vectors5; vectors6; vectors7; vectors8; vectors9].

(** Every vector gives the expected result. *)
Example vectors_apply : filter (fun nv => negb (test_apply (snd nv))) vectors = [].
Proof. vm_compute. reflexivity. Qed.
Example vectors_merge_apply : filter (fun nv => negb (test_merge_apply (snd nv))) vectors = [].
Proof. vm_compute. reflexivity. Qed.
