(** Configuration documents and obtaining trust marks: the YAML side of unixtime.go,
    sliceorsinglevalue.go, entitystatement.go and trustmark.go, and the parts of
    trustmark_refresher.go that decide which trust mark is obtained (the interleavings are
    in Refresher.v). *)
From Coq Require Import QArith.
From Verif Require Import Base GoVal Policy Schema Metadata Chain FloatTime Json TrustMark Refresher.
Local Open Scope nat_scope.
Local Open Scope string_scope.

(** ** YAML (gopkg.in/yaml.v3, not part of /repo) *)

(** A YAML node. A scalar has the value its tag resolves to, and its text. A number is the
    float64 it is decoded to. Aliases, merge keys, non-scalar and non-string keys, custom
    tags, timestamps and the numbers .inf and .nan are not modelled.
    Used at entitystatement.go:154-172. *)
Inductive yaml :=
| YNull
| YBool (b : bool) (text : string)
| YNum (q : Q) (text : string)
| YStr (s : string)
| YSeq (l : list yaml)
| YMap (o : list (string * yaml)).

(** Decoding into an existing string, bool or float64. Null leaves the target as it is; any
    other scalar can be decoded into a string; some strings are booleans of YAML 1.1.
    Used at unixtime/unixtime.go:74-82. *)
Definition ystr (old : string) (y : yaml) : res string :=
  match y with
  | YNull => Ok old
  | YBool _ t => Ok t
  | YNum _ t => Ok t
  | YStr s => Ok s
  | _ => Err
  end.
Definition ybool (old : bool) (y : yaml) : res bool :=
  match y with
  | YNull => Ok old
  | YBool b _ => Ok b
  | YStr s => if mem s ["y"; "Y"; "yes"; "on"] then Ok true
              else if mem s ["n"; "N"; "no"; "off"] then Ok false else Err
  | _ => Err
  end.
Definition yfloat (y : yaml) : res Q := match y with YNum q _ => Ok q | _ => Err end.

(** DurationInSeconds.UnmarshalYAML: unixtime/unixtime.go:74-81. The method is not called
    for null. *)
Definition yduration (old : Z) (y : yaml) : res Z :=
  match y with
  | YNull => Ok old
  | _ => f <- yfloat y ;; Ok (decode_duration f)
  end.
(** DurationInSeconds.MarshalYAML: unixtime/unixtime.go:89-91. [show] prints a float64. *)
Definition enc_yduration (show : Q -> string) (d : Z) : yaml :=
  let f := rnd (rnd (inject_Z d) / inject_Z 1000000000) in YNum f (show f).

(** Decoding into any (or a map of any) fails if two members of a mapping have the same
    name. Used at entitystatement.go:154-172. *)
Fixpoint distinct (l : list string) : bool :=
  match l with [] => true | x :: r => negb (mem x r) && distinct r end.
Fixpoint unique (y : yaml) : bool :=
  match y with
  | YSeq l => forallb unique l
  | YMap o => distinct (keys o) && forallb (fun kv => unique (snd kv)) o
  | _ => true
  end.

(** SliceOrSingleValue.UnmarshalYAML, MarshalYAML: sliceorsinglevalue.go:37-57. [dec] and
    [enc] are decoding into a zero value and encoding of the element type. The methods are
    not called for null. The nil slice is encoded as an empty sequence. *)
Fixpoint ydec_all {T} (dec : yaml -> option T) (l : list yaml) : option (list T) :=
  match l with
  | [] => Some []
  | y :: l' => match dec y, ydec_all dec l' with Some x, Some r => Some (x :: r) | _, _ => None end
  end.
Definition unmarshal_ysos {T} (dec : yaml -> option T) (old : option (list T)) (y : yaml) : res (option (list T)) :=
  match y with
  | YNull => Ok old
  | _ => match dec y with
         | Some t => Ok (Some [t])
         | None => match y with
                   | YSeq l => match ydec_all dec l with Some ts => Ok (Some ts) | None => Err end
                   | _ => Err
                   end
         end
  end.
Definition marshal_ysos {T} (enc : T -> yaml) (v : option (list T)) : yaml :=
  match v with
  | None => YSeq []
  | Some [x] => enc x
  | Some l => YSeq (map enc l)
  end.

(** ** TrustMarkSpec in YAML: trustmark.go:381-389 *)

(** A TrustMarkSpec whose additional claims are YAML values. Used at trustmark.go:381-390. *)
Record yspec := YSpec {
  ys_type : string; ys_lifetime : Z; ys_ref : string; ys_logo : string; ys_include : bool; ys_deleg : string;
  ys_extra : smap yaml }.
Definition zero_yspec : yspec := YSpec "" 0 "" "" false "" [].

Definition yspec_tags : list string :=
  ["trust_mark_type"; "lifetime"; "ref"; "logo_uri"; "include_extra_claims_in_info"; "delegation_jwt"].

(** Decoding one member into the struct; names are matched exactly, unknown ones ignored.
    Used at trustmark.go:426-438. *)
Definition yspec_member (k : string) (y : yaml) (s : yspec) : res yspec :=
  if String.eqb k "trust_mark_type" then
    t <- ystr (ys_type s) y ;; Ok (YSpec t (ys_lifetime s) (ys_ref s) (ys_logo s) (ys_include s) (ys_deleg s) (ys_extra s))
  else if String.eqb k "lifetime" then
    d <- yduration (ys_lifetime s) y ;; Ok (YSpec (ys_type s) d (ys_ref s) (ys_logo s) (ys_include s) (ys_deleg s) (ys_extra s))
  else if String.eqb k "ref" then
    t <- ystr (ys_ref s) y ;; Ok (YSpec (ys_type s) (ys_lifetime s) t (ys_logo s) (ys_include s) (ys_deleg s) (ys_extra s))
  else if String.eqb k "logo_uri" then
    t <- ystr (ys_logo s) y ;; Ok (YSpec (ys_type s) (ys_lifetime s) (ys_ref s) t (ys_include s) (ys_deleg s) (ys_extra s))
  else if String.eqb k "include_extra_claims_in_info" then
    b <- ybool (ys_include s) y ;; Ok (YSpec (ys_type s) (ys_lifetime s) (ys_ref s) (ys_logo s) b (ys_deleg s) (ys_extra s))
  else if String.eqb k "delegation_jwt" then
    t <- ystr (ys_deleg s) y ;; Ok (YSpec (ys_type s) (ys_lifetime s) (ys_ref s) (ys_logo s) (ys_include s) t (ys_extra s))
  else Ok s.

Fixpoint yspec_members (o : list (string * yaml)) (s : yspec) : res yspec :=
  match o with
  | [] => Ok s
  | (k, y) :: o' => s' <- yspec_member k y s ;; yspec_members o' s'
  end.

(** TrustMarkSpec.UnmarshalYAML: trustmark.go:426-437, yamlUnmarshalWithExtra:
    entitystatement.go:154-170. Decoding twice is decoding once with the errors of both: the
    members must fit the fields and have different names. Anything but a mapping is an
    error; for null the method is not called. *)
Definition unmarshal_yspec (y : yaml) (s : yspec) : res yspec :=
  match y with
  | YNull => Ok s
  | YMap o =>
      if unique y then
        s' <- yspec_members o s ;;
        Ok (YSpec (ys_type s') (ys_lifetime s') (ys_ref s') (ys_logo s') (ys_include s') (ys_deleg s')
                  (filter (fun kv => negb (mem (fst kv) yspec_tags)) o))
      else Err
  | _ => Err
  end.

(** TrustMarkSpec.MarshalYAML: trustmark.go:416-423, yamlExtraMarshalHelper:
    entitystatement.go:110-123. [show] prints a float64; booleans print as true, false. *)
Definition show_bool (b : bool) : string := if b then "true" else "false".
Definition marshal_yspec (show : Q -> string) (s : yspec) : yaml :=
  YMap (fold_left (fun m kv => insert (fst kv) (snd kv) m) (ys_extra s)
    [("trust_mark_type", YStr (ys_type s)); ("lifetime", enc_yduration show (ys_lifetime s)); ("ref", YStr (ys_ref s));
     ("logo_uri", YStr (ys_logo s)); ("include_extra_claims_in_info", YBool (ys_include s) (show_bool (ys_include s)));
     ("delegation_jwt", YStr (ys_deleg s))]).

(** The YAML values as JSON values, for the claims of the issued marks.
    Used at trustmark.go:470-509. *)
Fixpoint to_json (y : yaml) : json :=
  match y with
  | YNull => JNull
  | YBool b _ => JBool b
  | YNum q _ => JNum q
  | YStr s => JStr s
  | YSeq l => JArr (map to_json l)
  | YMap o => JObj (map (fun kv => (fst kv, to_json (snd kv))) o)
  end.
Definition spec_of (s : yspec) : mark_spec :=
  MarkSpec (ys_type s) (ys_lifetime s) (ys_ref s) (ys_logo s) (map (fun kv => (fst kv, to_json (snd kv))) (ys_extra s))
           (ys_include s) (ys_deleg s).

(** ** Which mark is obtained: trustmark_refresher.go *)

(** The issuer built for self-issued marks. [is_sign] is None for a nil signer.
    Used at trustmark_refresher.go:35-80. *)
Record own_issuer := OwnIssuer { is_entity : string; is_sign : option (string -> json -> option string); is_specs : smap mark_spec }.

(** EntityConfigurationTrustMarkConfig: trustmark_refresher.go:17-31 *)
Record mconfig := MConfig {
  mc_type : string; mc_issuer : string; mc_self : bool; mc_spec : mark_spec; mc_jwt : string; mc_refresh : bool;
  mc_min : Z; mc_grace : Z; mc_exp : time; mc_tried : time;
  mc_sub : string; mc_endpoint : string; mc_own : option own_issuer }.

(** As in Refresher.v. Used at trustmark_refresher.go:17-32. *)
Definition shared (c : mconfig) : config :=
  Config (mc_type c) (mc_issuer c) (mc_self c) (mc_jwt c) (mc_refresh c) (mc_min c) (mc_grace c) (mc_exp c) (mc_tried c).

Definition set_type (t : string) (s : mark_spec) : mark_spec :=
  MarkSpec t (ms_lifetime s) (ms_ref s) (ms_logo s) (ms_extra s) (ms_include s) (ms_deleg s).

(** Verify: trustmark_refresher.go:35-79. [parse] is jwt.Parse, as in Refresher.v. *)
Definition verify_mconfig (parse : string -> option (option time * string * option string))
           (sub endpoint : string) (sign : option (string -> json -> option string)) (c : mconfig) : res mconfig :=
  let mn := if Z.eqb (mc_min c) 0 then (10 * second)%Z else mc_min c in
  let gr := if Z.eqb (mc_grace c) 0 then (3600 * second)%Z else mc_grace c in
  if negb (String.eqb (mc_jwt c) "") then
    match parse (mc_jwt c) with
    | None => Err
    | Some (exp, iss, None) => Err
    | Some (exp, iss, Some typ) =>
        Ok (MConfig typ iss (mc_self c) (mc_spec c) (mc_jwt c) (mc_refresh c) mn gr
                    (match exp with Some e => e | None => zero_time end) (mc_tried c) sub endpoint (mc_own c))
    end
  else if mc_self c then
    let spec := set_type (mc_type c) (mc_spec c) in
    if String.eqb (mc_type c) "" then Err
    else Ok (MConfig (mc_type c) (mc_issuer c) true spec (mc_jwt c) true mn gr (mc_exp c) (mc_tried c)
                     sub endpoint (Some (OwnIssuer sub sign (new_issuer [spec]))))
  else if (String.eqb (mc_type c) "" || String.eqb (mc_issuer c) "")%bool then Err
  else Ok (MConfig (mc_type c) (mc_issuer c) false (mc_spec c) (mc_jwt c) true mn gr (mc_exp c) (mc_tried c)
                   sub endpoint (mc_own c)).

(** The reply of a trust mark endpoint (internal/http/http.go:47-58): the request fails or is
    answered with an OAuth error, or there is a body. *)
Inductive reply := RFail | RBody (body : string).

(** The trust mark endpoint in an entity configuration: trustmark_refresher.go:127-131 *)
Definition mark_endpoint (s : stmt) : string :=
  match st_metadata s with
  | Some m => match md_fe m with
              | Some fe => match em_get "FederationTrustMarkEndpoint" fe with Some v => str_of v | None => "" end
              | None => ""
              end
  | None => ""
  end.

(** Obtaining a new mark, the body of refresh after the rate limit:
    trustmark_refresher.go:104-153. [ask endpoint typ sub] is the GET request. The result is
    the new JWT with the expiration kept for it. Calls on a nil issuer or signer panic. *)
Definition obtain (e : env) (ask : string -> string -> string -> reply) (now : time) (c : mconfig) : res (string * time) :=
  if mc_self c then
    match mc_own c with
    | None => Panic
    | Some o =>
        match is_sign o with
        | None => match lookup (mc_type c) (is_specs o) with None => Err | Some _ => Panic end
        | Some sign =>
            t <- issue_mark sign (is_entity o) (is_specs o) now (mc_type c) (mc_sub c) None ;;
            Ok (ti_jwt t, match ti_mark t with
                          | Some m => match mk_exp m with Some x => x | None => zero_time end
                          | None => zero_time
                          end)
        end
    end
  else
    ep <- (if String.eqb (mc_issuer c) (mc_sub c) then Ok (mc_endpoint c)
           else match te_config e [] (mc_issuer c) with
                | None => Err
                | Some ec => if String.eqb (mark_endpoint ec) "" then Err else Ok (mark_endpoint ec)
                end) ;;
    match ask ep (mc_type c) (mc_sub c) with
    | RFail => Err
    | RBody body =>
        m <- parse_mark e body ;;
        Ok (body, match mk_exp m with Some x => x | None => zero_time end)
    end.

(** TrustMarkJWT without concurrent calls: trustmark_refresher.go:83-95,98-103. The result,
    the returned JWT, and the object afterwards; the background refresh is left out. *)
Definition set_mark (c : mconfig) (j : string) (x tried : time) : mconfig :=
  MConfig (mc_type c) (mc_issuer c) (mc_self c) (mc_spec c) j (mc_refresh c) (mc_min c) (mc_grace c) x tried
          (mc_sub c) (mc_endpoint c) (mc_own c).
Definition mark_jwt (e : env) (ask : string -> string -> string -> reply) (now : time) (c : mconfig) : res string * mconfig :=
  if negb (mc_refresh c) then (Ok (mc_jwt c), c)
  else if (negb (String.eqb (mc_jwt c) "") && Z.ltb (mc_min c) (until (mc_exp c) now))%bool then (Ok (mc_jwt c), c)
  else if Z.ltb (since (mc_tried c) now) minute then (Err, c)
  else match obtain e ask now c with
       | Ok (j, x) => (Ok j, set_mark c j x now)
       | Err => (Err, set_mark c (mc_jwt c) (mc_exp c) now)
       | Panic => (Panic, set_mark c (mc_jwt c) (mc_exp c) now)
       end.

(** ** Key sets: jwks/jwks.go. [K] is jwk.Set with its keys; None is a nil set. *)

(** What jwk.Set (github.com/lestrrat-go/jwx/v3) does: [kc_enc] json.Marshal, [kc_dec]
    json.Unmarshal into a set (which forgets what was in it before), None for an error, and
    [kc_len] the number of keys. Used at jwks/jwks.go:15-92. *)
Record keycodec (K : Type) := KeyCodec { kc_enc : K -> json; kc_dec : json -> option K; kc_len : K -> nat }.
Arguments kc_enc {K} _ _.
Arguments kc_dec {K} _ _.
Arguments kc_len {K} _ _.

(** MarshalJSON: jwks/jwks.go:25-28 *)
Definition enc_keys {K} (kc : keycodec K) (s : option K) : json :=
  match s with None => JNull | Some k => kc_enc kc k end.
(** UnmarshalJSON: jwks/jwks.go:31-46 *)
Definition dec_keys {K} (kc : keycodec K) (j : json) : res (option K) :=
  match j with
  | JNull => Ok None
  | _ => match kc_dec kc j with
         | None => Err
         | Some k => Ok (if Nat.eqb (kc_len kc k) 0 then None else Some k)
         end
  end.

(** A JSON value as a YAML node and back. [show] prints a float64. Used at jwks/jwks.go:49-72. *)
Fixpoint to_yaml (show : Q -> string) (j : json) : yaml :=
  match j with
  | JNull => YNull
  | JBool b => YBool b (show_bool b)
  | JNum q => YNum q (show q)
  | JStr s => YStr s
  | JArr l => YSeq (map (to_yaml show) l)
  | JObj o => YMap (map (fun kv => (fst kv, to_yaml show (snd kv))) o)
  end.

(** MarshalYAML: jwks/jwks.go:49-59 *)
Definition enc_keys_yaml {K} (show : Q -> string) (kc : keycodec K) (s : option K) : yaml := to_yaml show (enc_keys kc s).
(** UnmarshalYAML: jwks/jwks.go:62-72; not called for null. *)
Definition dec_keys_yaml {K} (kc : keycodec K) (old : option K) (y : yaml) : res (option K) :=
  match y with
  | YNull => Ok old
  | YMap o => if unique y then dec_keys kc (to_json (YMap o)) else Err
  | _ => Err
  end.
(** MarshalMsgpack, UnmarshalMsgpack: jwks/jwks.go:75-90. The JSON text as a byte string,
    which msgpack keeps. *)
Definition enc_keys_msgpack {K} (kc : keycodec K) (s : option K) : json := enc_keys kc s.
Definition dec_keys_msgpack {K} (kc : keycodec K) (j : json) : res (option K) := dec_keys kc j.
