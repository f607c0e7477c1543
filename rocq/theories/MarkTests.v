(** The unit tests of the repository for trust marks and delegations, run on the model: they
    are tests of the model, not proofs. trustmark_test.go, without
    TestDelegationJWT_VerifyExternal (it verifies given ECDSA signatures). The signers sign
    exactly the documents in [documents], which are written out here. *)
From Coq Require Import QArith.
From Verif Require Import Base GoVal Policy Schema Metadata Chain Resolver FloatTime Json TrustMark Refresher Leaf Config Jwt Statement Encode SpecEncode
  WitnessStatement WitnessEncode WitnessTrustMark Federation Web MockNet.
From Verif Require Import SpecEncode Json GoVal.
Local Open Scope nat_scope.
Local Open Scope string_scope.

Definition tmi1 := "https://tmi.example.org".
Definition tmi2 := "https://tmi2.example.com".
Definition tmo := "https://tmo.example.eu".
Definition ta_tmo := "https://trustmark.ta.com".
Definition tm (x : string) := "https://trustmarks.org/" ++ x.
Definition hour : Z := (3600 * 1000000000)%Z.

(** The specifications: trustmark_test.go:14-88 and 118-136 *)
Definition of_tmi1 (delegation : string) : smap mark_spec :=
  add_mark (MarkSpec (tm "test") hour "" "" [] false delegation)
    (new_issuer [ MarkSpec (tm "tm1") hour "" "" [] false ""
                ; MarkSpec (tm "tm2") hour (tm "tm2/info") (tm "tm2/logo") [] false ""
                ; MarkSpec (tm "tm3") hour "" "" [] false ""
                ; MarkSpec (tm "tm4") hour "" "" [] false ""
                ; MarkSpec (tm "tm-delegated") hour "" "" [] false "" ]).
Definition of_tmi2 : smap mark_spec :=
  new_issuer [ MarkSpec (tm "tm1") 0 (tm "tm1/info") (tm "tm1/logo") [("foo", JStr "bar")] false ""
             ; MarkSpec (tm "tm2") 0 (tm "tm2/info") (tm "tm2/logo") [("foo", JStr "bar")] true ""
             ; MarkSpec (tm "tm-delegated") hour "" "" [] false "" ].
Definition of_tmo : smap owned :=
  new_owner [ Owned (tm "tm-delegated") (24 * hour) "" [("key", JStr "value")]; Owned (tm "test") 0 "" []; Owned (tm "invalid") 0 "" []; Owned (tm "other") 0 "" [] ].

(** taWithTmo: trustmark_test.go:90-116 *)
Definition ta_tmo_statement : stmt :=
  Stmt "" ta_tmo ta_tmo (at_second 100) (at_second 400) (Some [ta_tmo]) [] (Some (md_authority ta_tmo)) None None [] [] []
       [ (tm "tm1", [tmi1; "https://tmi2.example.org"]); (tm "tm-delegated", [tmi1]); (tm "test", [tmi1]); (tm "tm4", ["https://tmi2.example.org"]) ]
       [ (tm "tm-delegated", (tmo, Some [tmo])); (tm "test", (tmo, Some [tmo])); (tm "other", ("https://other.owner.org", Some [rp1])) ].
Definition tmi_statement (id : string) : stmt :=
  Stmt "" id id (at_second 100) (at_second 400) (Some [id]) [ta_tmo]
       (Some (Metadata None None None None None (Some (build fe_schema [("federation_trust_mark_status_endpoint", VStr "TODO"); ("organization_name", VStr "Organization: 0")] [])) []))
       None None [] [] [] [] [].
Definition ta_about (id : string) : stmt := Stmt "" ta_tmo id (at_second 100) (at_second 400) (Some [id]) [] None None None [] [] [] [] [].

(** Documents that are signed, by name: the type, the signer and the claims. *)
Definition claims (iss sub typ : string) (exp : option Z) (more : smap json) : json :=
  JObj ([("iss", JStr iss); ("sub", JStr sub); ("trust_mark_type", JStr (tm typ)); ("iat", JNum 200)] ++ more
        ++ match exp with Some e => [("exp", JNum (inject_Z (200 + e)))] | None => [] end)%list.
Definition documents : list (string * (string * string * json)) :=
  [ ("d1", (typ_delegation, tmo, claims tmo "https://example.org" "test" None []))
  ; ("d2", (typ_delegation, tmo, claims tmo "https://example.org" "tm-delegated" (Some 86400%Z) [("key", JStr "value")]))
  ; ("d3", (typ_delegation, tmo, claims tmo "https://example.org" "tm-delegated" (Some 60%Z) [("key", JStr "value")]))
  ; ("d4", (typ_delegation, tmo, claims tmo "foobar" "tm-delegated" (Some 86400%Z) [("key", JStr "value")]))
  ; ("d5", (typ_delegation, tmo, claims tmo "foobar" "test" None []))
  ; ("d6", (typ_delegation, tmo, claims tmo "foobar" "invalid" None []))
  ; ("d7", (typ_delegation, tmo, claims tmo "foobar" "other" None []))
  ; ("d8", (typ_delegation, tmo, claims tmo tmi1 "test" None []))
  ; ("m1", (typ_mark, tmi1, claims tmi1 "foobar" "tm1" (Some 3600%Z) []))
  ; ("m2", (typ_mark, tmi1, claims tmi1 "foobar" "tm1" (Some 7200%Z) []))
  ; ("m3", (typ_mark, tmi1, claims tmi1 "foobar" "tm3" (Some 3600%Z) []))
  ; ("m4", (typ_mark, tmi1, claims tmi1 "foobar" "tm4" (Some 3600%Z) []))
  ; ("m5", (typ_mark, tmi1, claims tmi1 "foobar" "tm-delegated" (Some 3600%Z) []))
  ; ("m6", (typ_mark, tmi1, claims tmi1 "foobar" "test" (Some 3600%Z) [("delegation", JStr "d8")]))
  ; ("m7", (typ_mark, tmi2, claims tmi2 "foobar" "tm-delegated" (Some 3600%Z) [])) ].
Definition equal_flat (a b : json) : bool :=
  match a, b with JNum q, JNum r => Qeq_bool q r | JStr x, JStr y => String.eqb x y | _, _ => false end.
Definition same_members (a b : list (string * json)) : bool :=
  (Nat.eqb (List.length a) (List.length b) && forallb (fun kv => match lookup (fst kv) b with Some v => equal_flat v (snd kv) | None => false end) a)%bool.
Definition same_claims (a b : json) : bool :=
  match a, b with JObj x, JObj y => same_members x y | _, _ => false end.
Definition signer (id : string) (typ : string) (j : json) : option string :=
  option_map fst (find (fun d => let '(t, s, x) := snd d in (String.eqb t typ && String.eqb s id && same_claims x j)%bool) documents).

Definition mark_message (d : string * (string * string * json)) : string * message :=
  let '(name, (typ, s, j)) := d in (name, Msg j [Sig (Some typ) (Some s) "ES512" (Some s)]).
Definition mark_jwts : list (string * message) :=
  Eval vm_compute in (map (fun st => (jwt_name (st_iss st) (st_sub st), mock_message st))
    [ta_tmo_statement; tmi_statement tmi1; tmi_statement tmi2; ta_about tmi1; ta_about tmi2] ++ map mark_message documents)%list.
Definition mark_mock : Federation.network :=
  Network (Crypto (fun jwt => lookup jwt mark_jwts) (fun k => k) (fun _ _ => true)) kc_texts
    (map (fun k => Jwk k (Some k) (Some "ES512") (Some "sig")))
    (fun _ id => Some (jwt_name id id))
    (fun _ ep sub _ => if String.eqb ep (ta_tmo ++ "/fetch") then Some (jwt_name ta_tmo sub) else None)
    (fun _ _ => at_second 200) hostname.
Definition mark_env : env :=
  Env LocalR (fun _ _ => seen mark_mock) (fun _ a => w_config (seen mark_mock) [] a) (fun _ _ _ => ATransport) (fun _ _ => at_second 200) (read_jwt (nw_crypto mark_mock))
      (fun jwt => ok_or_none (parse_statement (read_jwt (nw_crypto mark_mock)) kc_texts jwt)) no_remote (verify_raw mark_mock) (fun _ => []).

(** TestTrustMarkOwner_DelegationJWT: trustmark_test.go:139-234 *)
Definition delegates (t : string * option Z * option Z) : bool :=
  let '(typ, lifetime, expected) := t in
  match delegate (signer tmo) tmo of_tmo (at_second 200) (tm typ) "https://example.org" lifetime with
  | Ok jwt => match parse_delegation mark_env jwt with
              | Ok d => (String.eqb (dg_type d) (tm typ) && String.eqb (dg_sub d) "https://example.org" &&
                         match expected, dg_exp d with
                         | None, None => true
                         | Some l, Some x => Z.eqb (x - dg_iat d)%Z l
                         | _, _ => false
                         end &&
                         match lookup (tm typ) of_tmo with
                         | Some o => forallb (fun kv => match lookup (fst kv) (dg_extra d) with Some v => equal_flat v (snd kv) | None => false end) (ow_extra o)
                         | None => false
                         end && is_ok (deleg_verify_external mark_env [] d (Some [tmo])))%bool
              | _ => false
              end
  | _ => false
  end.
Example TestTrustMarkOwner_DelegationJWT : forallb delegates
  [ ("test", None, None); ("tm-delegated", None, Some (24 * hour)%Z); ("tm-delegated", Some (60 * 1000000000)%Z, Some (60 * 1000000000)%Z) ] = true.
Proof. vm_compute. reflexivity. Qed.

(** TestDelegationJWT_VerifyFederation: trustmark_test.go:294-348 *)
Definition verifies_delegation (t : string * bool) : bool :=
  match delegate (signer tmo) tmo of_tmo (at_second 200) (tm (fst t)) "foobar" None with
  | Ok jwt => match parse_delegation mark_env jwt with
              | Ok d => Bool.eqb (is_ok (deleg_verify_federation mark_env [] d ta_tmo_statement)) (negb (snd t))
              | _ => false
              end
  | _ => false
  end.
Example TestDelegationJWT_VerifyFederation : forallb verifies_delegation
  [ ("tm-delegated", false); ("test", false); ("invalid", true); ("other", true) ] = true.
Proof. vm_compute. reflexivity. Qed.

(** TestTrustMarkIssuer_IssueAndVerifyTrustMark: trustmark_test.go:350-end *)
Definition issued_by (id : string) : smap mark_spec := if String.eqb id tmi1 then of_tmi1 "d8" else of_tmi2.
Definition issues_and_verifies (t : string * string * option Z * Z * bool * bool) : bool :=
  let '(typ, id, lifetime, expected, no_issue, no_verify) := t in
  match issue_mark (signer id) id (issued_by id) (at_second 200) (tm typ) "foobar" lifetime with
  | Err => no_issue
  | Panic => false
  | Ok i =>
      (negb no_issue &&
       match info_mark mark_env i with
       | Ok (m, _) => match mk_exp m with Some x => Z.eqb (x - mk_iat m)%Z expected | None => false end
       | _ => false
       end &&
       match verify_mark 20 mark_env [] i ta_tmo_statement with
       | Done (Ok _) => negb no_verify
       | Done Err => no_verify
       | _ => false
       end)%bool
  end.
Example TestTrustMarkIssuer_IssueAndVerifyTrustMark : forallb issues_and_verifies
  [ ("tm1", tmi1, None, hour, false, false)
  ; ("tm1", tmi1, Some (2 * hour)%Z, (2 * hour)%Z, false, false)
  ; ("unknown", tmi1, None, 0%Z, true, false)
  ; ("tm3", tmi1, None, hour, false, false)
  ; ("tm4", tmi1, None, hour, false, true)
  ; ("tm-delegated", tmi1, None, hour, false, true)
  ; ("test", tmi1, None, hour, false, false)
  ; ("tm-delegated", tmi2, None, hour, false, true) ] = true.
Proof. vm_compute. reflexivity. Qed.
