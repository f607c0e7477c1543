(** Property theorems about configuration documents, the trust marks they lead to, and key
    sets (C95-C99). [..._refuted] gives a counterexample to the full statement of the
    property, [..._partial] the version that holds. *)
From Coq Require Import QArith Qround.
From Verif Require Import Base GoVal Policy Schema Metadata Chain FloatTime SpecUnits SpecTime Json SpecJson TrustMark SpecTrustMark
  Refresher WitnessResolver WitnessTrustMark.
From Verif Require Import Config SpecConfig ConfigFacts ExactConfigFacts WitnessConfig.
Local Open Scope nat_scope.
Local Open Scope string_scope.

(** ** C95 Trust mark specifications survive YAML *)

(** Missing: lifetimes that are not whole seconds or longer than 146 years
    (C95_refuted_fraction), additional claims named like a field (C95_refuted_override). *)
Theorem C95_roundtrip_partial : forall show s l,
  ys_lifetime s = seconds l -> (Z.abs l <= 4611686018)%Z -> additional (ys_extra s) ->
  read_spec (marshal_yspec show s) s.
Proof. exact yspec_roundtrip. Qed.
Print Assumptions C95_roundtrip_partial.

Example C95_case : ys_lifetime spec95 = seconds 3600 /\ (Z.abs 3600 <= 4611686018)%Z /\ additional (ys_extra spec95) /\
  exists doc, read_spec doc spec95.
Proof. exact c95_case. Qed.

(** What is read from any accepted document: the text of the four string members, and every
    member without a meaning to the library as an additional claim. *)
Theorem C95_strings : forall doc s, read_spec doc s ->
  text_of (member "trust_mark_type" doc) = Some (ys_type s) /\ text_of (member "ref" doc) = Some (ys_ref s) /\
  text_of (member "logo_uri" doc) = Some (ys_logo s) /\ text_of (member "delegation_jwt" doc) = Some (ys_deleg s).
Proof. exact read_text. Qed.
Print Assumptions C95_strings.
Theorem C95_additional : forall doc s k, read_spec doc s ->
  lookup k (ys_extra s) = (if mem k spec_names then None else member k doc).
Proof. exact read_extra. Qed.
Print Assumptions C95_additional.
Theorem C95_include : forall doc s, read_spec doc s ->
  match member "include_extra_claims_in_info" doc with
  | Some (YBool b _) => ys_include s = b
  | Some (YStr t) => ys_include s = true /\ In t ["y"; "Y"; "yes"; "on"] \/ ys_include s = false /\ In t ["n"; "N"; "no"; "off"]
  | Some YNull | None => ys_include s = false
  | Some _ => False
  end.
Proof. exact read_include. Qed.
Print Assumptions C95_include.

Theorem C95_refuted_override : exists s s',
  NoDup (keys (ys_extra s)) /\ read_spec (marshal_yspec show0 s) s' /\ ys_type s = "tm1" /\ ys_type s' = "tm2".
Proof. exact c95_override. Qed.
Print Assumptions C95_refuted_override.
Theorem C95_refuted_fraction : exists s s',
  ys_extra s = [] /\ (0 < ys_lifetime s)%Z /\ read_spec (marshal_yspec show0 s) s' /\ ys_lifetime s' = 0%Z.
Proof. exact c95_fraction. Qed.
Print Assumptions C95_refuted_fraction.

(** ** C96 Issued trust marks live as long as the configuration document says *)

(** Missing: lifetimes that are not whole numbers of seconds. *)
Theorem C96_whole_partial : forall doc s q n txt sign ent now sub t,
  read_spec doc s -> member "lifetime" doc = Some (YNum q txt) -> (q == inject_Z n)%Q -> (1 <= n <= 9223372036)%Z ->
  issue_mark sign ent (new_issuer [spec_of s]) now (ys_type s) sub None = Ok t ->
  exists m, ti_mark t = Some m /\ mk_exp m = Some (now + seconds n)%Z.
Proof. exact configured_lifetime_whole. Qed.
Print Assumptions C96_whole_partial.

(** Fractions of a second are cut off. *)
Theorem C96_floor_partial : forall doc s q txt sign ent now sub t,
  read_spec doc s -> member "lifetime" doc = Some (YNum q txt) -> (1 <= q)%Q -> (q < inject_Z 9223372037)%Q ->
  issue_mark sign ent (new_issuer [spec_of s]) now (ys_type s) sub None = Ok t ->
  exists m, ti_mark t = Some m /\ mk_exp m = Some (now + seconds (Qfloor q))%Z.
Proof. exact configured_lifetime. Qed.
Print Assumptions C96_floor_partial.

Example C96_case : exists s t, read_spec (doc96 (86400 # 1)) s /\ member "lifetime" (doc96 (86400 # 1)) = Some (YNum (86400 # 1) "l") /\
  ((86400 # 1) == inject_Z 86400)%Q /\ issue_mark sign96 ISS (new_issuer [spec_of s]) (seconds 100) (ys_type s) LEAF None = Ok t.
Proof. exact c96_case. Qed.

(** A lifetime of half a second gives marks that never expire. *)
Theorem C96_refuted : exists doc s sign ent now sub t m,
  read_spec doc s /\ member "lifetime" doc = Some (YNum (1 # 2) "0.5") /\
  issue_mark sign ent (new_issuer [spec_of s]) now (ys_type s) sub None = Ok t /\ ti_mark t = Some m /\ mk_exp m = None.
Proof. exact c96_half. Qed.
Print Assumptions C96_refuted.

(** ** C97 Key sets survive JSON, YAML and the cache *)

(** Missing: empty sets (C97_refuted). *)
Theorem C97_json_partial : forall (K : Type) (kc : keycodec K) k,
  keeps kc k -> kc_len kc k <> 0 -> dec_keys kc (enc_keys kc (Some k)) = Ok (Some k).
Proof. exact @keys_json. Qed.
Print Assumptions C97_json_partial.
Theorem C97_yaml_partial : forall (K : Type) (kc : keycodec K) show old k,
  keeps kc k -> kc_len kc k <> 0 -> dec_keys_yaml kc old (enc_keys_yaml show kc (Some k)) = Ok (Some k).
Proof. exact @keys_yaml. Qed.
Print Assumptions C97_yaml_partial.
Theorem C97_cache_partial : forall (K : Type) (kc : keycodec K) k,
  keeps kc k -> kc_len kc k <> 0 -> dec_keys_msgpack kc (enc_keys_msgpack kc (Some k)) = Ok (Some k).
Proof. exact @keys_json. Qed.
Print Assumptions C97_cache_partial.

(** The set of a document without keys *)
Theorem C97_nil : forall (K : Type) (kc : keycodec K) show,
  dec_keys kc (enc_keys kc None) = Ok None /\ dec_keys_yaml kc None (enc_keys_yaml show kc None) = Ok None /\
  dec_keys_msgpack kc (enc_keys_msgpack kc None) = Ok None.
Proof. exact @keys_nil. Qed.
Print Assumptions C97_nil.

(** A decoded set that is not nil is never empty, and is what the JOSE library reads. *)
Theorem C97_nonempty : forall (K : Type) (kc : keycodec K) j k,
  dec_keys kc j = Ok (Some k) -> kc_len kc k <> 0 /\ kc_dec kc j = Some k.
Proof. exact @keys_nonempty. Qed.
Print Assumptions C97_nonempty.

Example C97_case : keeps kc0 ["k1"; "k2"] /\ kc_len kc0 ["k1"; "k2"] <> 0.
Proof. exact c97_case. Qed.

(** An empty set comes back as a nil set, on which every method call panics. *)
Theorem C97_refuted : exists (K : Type) (kc : keycodec K) k, keeps kc k /\ len_of kc (Some k) = Ok 0 /\
  exists s, dec_keys kc (enc_keys kc (Some k)) = Ok s /\ len_of kc s = Panic.
Proof. exact c97_empty. Qed.
Print Assumptions C97_refuted.

(** ** C98 A verified trust mark configuration can be used *)

(** Missing: self-issued marks with a configured JWT (C98_refuted), or without signer
    (C98_refuted_signer). *)
Theorem C98_usable_partial : forall parse sub ep sign c c1 c2 e ask now,
  verify_mconfig parse sub ep sign c = Ok c1 -> mc_self c = false \/ (mc_jwt c = "" /\ sign <> None) -> used c1 c2 ->
  fst (mark_jwt e ask now c2) <> Panic.
Proof. exact verified_usable. Qed.
Print Assumptions C98_usable_partial.

(** What a verified configuration contains. *)
Theorem C98_verified : forall parse sub ep sign c c1, verify_mconfig parse sub ep sign c = Ok c1 ->
  mc_sub c1 = sub /\ mc_endpoint c1 = ep /\ mc_self c1 = mc_self c /\
  (mc_jwt c = "" -> mc_type c1 = mc_type c /\ mc_refresh c1 = true /\ mc_type c <> "" /\
     (mc_self c = false -> mc_issuer c1 = mc_issuer c /\ mc_issuer c <> "") /\
     (mc_self c = true -> mc_own c1 = Some (OwnIssuer sub sign (new_issuer [set_type (mc_type c) (mc_spec c)])))) /\
  (mc_jwt c <> "" -> exists ex iss typ, parse (mc_jwt c) = Some (ex, iss, Some typ) /\ mc_type c1 = typ /\ mc_issuer c1 = iss /\
     mc_jwt c1 = mc_jwt c /\ mc_refresh c1 = mc_refresh c).
Proof. exact verified_fields. Qed.
Print Assumptions C98_verified.

(** Defaults: ten seconds and an hour. *)
Theorem C98_defaults : forall parse sub ep sign c c1, verify_mconfig parse sub ep sign c = Ok c1 ->
  (mc_min c = 0%Z -> mc_min c1 = (10 * a_second)%Z) /\ (mc_min c <> 0%Z -> mc_min c1 = mc_min c) /\
  (mc_grace c = 0%Z -> mc_grace c1 = an_hour) /\ (mc_grace c <> 0%Z -> mc_grace c1 = mc_grace c) /\
  (forall ex iss typ, mc_jwt c <> "" -> parse (mc_jwt c) = Some (ex, iss, typ) ->
     mc_exp c1 = match ex with Some t => t | None => zero_time end) /\
  mc_tried c1 = mc_tried c.
Proof. exact verified_defaults. Qed.
Print Assumptions C98_defaults.

Example C98_case : exists c1, verify_mconfig parse98 LEAF "" (Some sign96) (cfg98 true true "") = Ok c1 /\ mc_own c1 <> None /\
  fst (mark_jwt env0 refuse (seconds 100) c1) = Ok "signed".
Proof. exact c98_case. Qed.

Theorem C98_refuted : exists parse sub ep sign c c1 e ask now, unused c /\ sign <> None /\
  verify_mconfig parse sub ep sign c = Ok c1 /\ fst (mark_jwt e ask now c1) = Panic.
Proof. exact c98_witness. Qed.
Print Assumptions C98_refuted.
Theorem C98_refuted_signer : exists parse sub ep c c1 e ask now, unused c /\ mc_jwt c = "" /\
  verify_mconfig parse sub ep None c = Ok c1 /\ fst (mark_jwt e ask now c1) = Panic.
Proof. exact c98_no_signer. Qed.
Print Assumptions C98_refuted_signer.

(** Exactly when: the mark is to be refreshed now (refreshing is on, the mark held is missing or
    about to expire, the last attempt was a minute ago), self_issued is set, and a JWT was
    configured or there is no signer. *)
Theorem C98_panics_exact : forall parse sub ep sign c c1 c2 e ask now,
  unused c -> verify_mconfig parse sub ep sign c = Ok c1 -> used c1 c2 ->
  (fst (mark_jwt e ask now c2) = Panic <->
   mc_self c = true /\ (mc_jwt c <> "" \/ sign = None) /\
   mc_refresh c2 = true /\ ~ (mc_jwt c2 <> "" /\ (mc_min c2 < until (mc_exp c2) now)%Z) /\
   (minute <= since (mc_tried c2) now)%Z).
Proof. exact verified_panics. Qed.
Print Assumptions C98_panics_exact.

(** An own issuer that was given other types reports an error, also without a signer. *)
Theorem C98_unknown_type : forall e ask now c o,
  mc_self c = true -> mc_own c = Some o -> lookup (mc_type c) (is_specs o) = None -> obtain e ask now c = Err.
Proof. exact unknown_type. Qed.
Print Assumptions C98_unknown_type.

(** ** C99 The refreshed trust mark is the one that was asked for *)

(** Self-issued marks are, and verify with the own key. *)
Theorem C99_self_partial : forall e k sign sub ep parse ask now c c1 c2 j x,
  verify_mconfig parse sub ep (Some sign) c = Ok c1 -> mc_self c = true -> mc_jwt c = "" -> used c1 c2 ->
  signer e sign k -> no_clash mark_fields (ms_extra (mc_spec c)) ->
  obtain e ask now c2 = Ok (j, x) ->
  exists m, is_mark e j m /\ mk_iss m = sub /\ mk_sub m = sub /\ mk_type m = mc_type c /\ mk_iat m = json_time now /\
    x = (if Z.eqb (ms_lifetime (mc_spec c)) 0 then zero_time else (now + ms_lifetime (mc_spec c))%Z) /\
    forall ks, te_verify e j ks = true <-> In k ks.
Proof. exact obtained_self. Qed.
Print Assumptions C99_self_partial.

Example C99_self_case : let e := env_at (seconds S0) typ_mark own_mark in let sign := sign_only typ_mark own_mark in
  signer e sign "ki" /\ no_clash mark_fields (ms_extra (mc_spec (cfg98 true true ""))) /\
  exists c1, verify_mconfig parse98 ISS "" (Some sign) (cfg98 true true "") = Ok c1 /\
    obtain e refuse (seconds S0) c1 = Ok ("ki:signed", zero_time).
Proof. exact c99_self_case. Qed.

(** Otherwise: the mark is what the endpoint of the configured issuer answers to a request
    for the configured type and subject, and its own exp is kept. Missing: that the answer is
    about them, signed and not expired (C99_refuted). *)
Theorem C99_remote_partial : forall e ask now c j x, obtain e ask now c = Ok (j, x) -> mc_self c = false ->
  exists ep m, (mc_issuer c = mc_sub c /\ ep = mc_endpoint c \/
                exists ec, te_config e [] (mc_issuer c) = Some ec /\ ep = mark_endpoint ec /\ ep <> "") /\
    ask ep (mc_type c) (mc_sub c) = RBody j /\ is_mark e j m /\ x = match mk_exp m with Some t => t | None => zero_time end.
Proof. exact obtained_remote. Qed.
Print Assumptions C99_remote_partial.

Example C99_case : exists c1 j x, verify_mconfig parse98 LEAF "https://leaf.example/tm" None cfg99 = Ok c1 /\
  obtain env0 (serve "kiss:m") (seconds 100) c1 = Ok (j, x) /\ mc_self c1 = false.
Proof. exact c99_case. Qed.

(** The obtained mark is kept: it is returned again as long as it is not to be renewed, and
    a failing call leaves it alone. *)
Theorem C99_kept : forall e ask now c j c1, mark_jwt e ask now c = (Ok j, c1) -> j <> "" ->
  mc_jwt c1 = j /\
  (forall e' ask' now', mc_refresh c = false \/ (mc_min c1 < until (mc_exp c1) now')%Z -> mark_jwt e' ask' now' c1 = (Ok j, c1)) /\
  (c1 <> c -> obtain e ask now c = Ok (j, mc_exp c1) /\ mc_tried c1 = now).
Proof. exact kept_mark. Qed.
Print Assumptions C99_kept.
Theorem C99_failed : forall e ask now c r c1, mark_jwt e ask now c = (r, c1) -> (forall j, r <> Ok j) ->
  mc_jwt c1 = mc_jwt c /\ mc_exp c1 = mc_exp c.
Proof. exact failed_mark. Qed.
Print Assumptions C99_failed.

(** A mark of another type, about and by somebody else, signed by nobody and expired is
    obtained and published. *)
Theorem C99_refuted : exists parse sub ep sign c c1 e ask now j m, unused c /\ mc_jwt c = "" /\
  verify_mconfig parse sub ep sign c = Ok c1 /\ fst (mark_jwt e ask now c1) = Ok j /\ is_mark e j m /\
  mk_type m <> mc_type c /\ mk_sub m <> sub /\ mk_iss m <> mc_issuer c /\ (forall ks, te_verify e j ks = false) /\
  exists t, mk_exp m = Some t /\ (t < now)%Z.
Proof. exact c99_witness. Qed.
Print Assumptions C99_refuted.
