(** Trust mark specifications in JSON: trustmark.go:380-413. (Their YAML is in Config.v.) *)
From Coq Require Import QArith.
From Verif Require Import Base GoVal Policy Schema Metadata Chain FloatTime Json TrustMark.
Local Open Scope nat_scope.
Local Open Scope string_scope.

(** Values of the fields of TrustMarkSpec other than Extra: trustmark.go:381-389. Durations in
    nanoseconds. *)
Inductive sval := SStr (s : string) | SDur (d : Z) | SBool (b : bool).

(** string, bool: decoding null is a no-op. Used at trustmark.go:402-413. *)
Definition sstr_codec : codec sval :=
  Codec (SStr "") (fun v => match v with SStr "" => true | _ => false end)
        (fun v => match v with SStr s => JStr s | _ => JNull end)
        (fun old j => s <- dec_str (match old with SStr s => s | _ => "" end) j ;; Ok (SStr s)).
Definition sbool_codec : codec sval :=
  Codec (SBool false) (fun v => match v with SBool b => negb b | _ => true end)
        (fun v => match v with SBool b => JBool b | _ => JNull end)
        (fun old j => match j with JBool b => Ok (SBool b) | JNull => Ok old | _ => Err end).
(** DurationInSeconds: unixtime/unixtime.go:63-70,84-86. The method is called for null too,
    which leaves its float64 at 0. *)
Definition sdur_codec : codec sval :=
  Codec (SDur 0) (fun _ => false)
        (fun v => match v with SDur d => JNum (encode_duration d) | _ => JNull end)
        (fun _ j => match j with JNum q => Ok (SDur (decode_duration q)) | JNull => Ok (SDur (decode_duration 0%Q)) | _ => Err end).

(** TrustMarkSpec: trustmark.go:381-389 *)
Definition spec_fields : list (jfield sval) :=
  [ JField "trust_mark_type" false sstr_codec; JField "lifetime" false sdur_codec; JField "ref" false sstr_codec;
    JField "logo_uri" false sstr_codec; JField "include_extra_claims_in_info" false sbool_codec;
    JField "delegation_jwt" false sstr_codec ].

(** The fields in this order, and back. Used at trustmark.go:392-413. *)
Definition spec_values (s : mark_spec) : list sval :=
  [SStr (ms_type s); SDur (ms_lifetime s); SStr (ms_ref s); SStr (ms_logo s); SBool (ms_include s); SStr (ms_deleg s)].
Definition of_values (vs : list sval) (x : smap json) : res mark_spec :=
  match vs with
  | [SStr t; SDur d; SStr r; SStr l; SBool i; SStr de] => Ok (MarkSpec t d r l x i de)
  | _ => Err
  end.

(** TrustMarkSpec.MarshalJSON: trustmark.go:392-399 *)
Definition marshal_jspec (s : mark_spec) : json := marshal spec_fields (spec_values s) (ms_extra s).
(** TrustMarkSpec.UnmarshalJSON: trustmark.go:402-413, into the specification [s] *)
Definition unmarshal_jspec (j : json) (s : mark_spec) : res mark_spec :=
  '(vs, x) <- unmarshal_with_extra spec_fields j (spec_values s) ;; of_values vs x.
(** The zero value. Used at trustmark.go:381-389. *)
Definition zero_spec : mark_spec := MarkSpec "" 0 "" "" [] false "".
