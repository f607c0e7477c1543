(** The OIDC part of a leaf entity: authcode.go, with the parts of net/url it relies on. *)
From Coq Require Import QArith.
From Verif Require Import Base GoVal Policy Schema Metadata Chain Resolver FloatTime Json TrustMark.
Local Open Scope nat_scope.
Local Open Scope string_scope.

(** ** net/url *)

(** A []string of a url.Values: nil or a list. Used at authcode.go:154-163,175-195. *)
Definition values := smap (option (list string)).
Definition items (v : option (list string)) : list string := match v with Some l => l | None => [] end.
(** Values.Set. Used at authcode.go:154-163,175-195. *)
Definition vset (k v : string) (m : values) : values := insert k (Some [v]) m.

(** The bytes QueryEscape leaves unchanged: net/url shouldEscape for query components.
    Used at authcode.go:154-163. *)
Definition unreserved (c : ascii) : bool :=
  let n := nat_of_ascii c in
  (Nat.leb 65 n && Nat.leb n 90) || (Nat.leb 97 n && Nat.leb n 122) || (Nat.leb 48 n && Nat.leb n 57)
  || Nat.eqb n 45 || Nat.eqb n 95 || Nat.eqb n 46 || Nat.eqb n 126.
Definition hex_digit (n : nat) : ascii := ascii_of_nat (if Nat.ltb n 10 then 48 + n else 55 + n).
Fixpoint query_escape (s : string) : string :=
  match s with
  | EmptyString => EmptyString
  | String c r =>
      if unreserved c then String c (query_escape r)
      else if Nat.eqb (nat_of_ascii c) 32 then String "+" (query_escape r)
      else String "%" (String (hex_digit (nat_of_ascii c / 16)) (String (hex_digit (nat_of_ascii c mod 16)) (query_escape r)))
  end.
(** Values.Encode: the keys are sorted. Used at authcode.go:154-163. *)
Fixpoint insert_sorted {V} (kv : string * V) (l : smap V) : smap V :=
  match l with
  | [] => [kv]
  | kv' :: l' => if String.leb (fst kv) (fst kv') then kv :: l else kv' :: insert_sorted kv l'
  end.
Definition sort_keys {V} (m : smap V) : smap V := fold_right insert_sorted [] m.
Definition pairs (m : values) : list (string * string) :=
  flat_map (fun kv => map (fun x => (fst kv, x)) (items (snd kv))) (sort_keys m).
Definition encode_pair (kv : string * string) : string := query_escape (fst kv) ++ "=" ++ query_escape (snd kv).
Definition encode (m : values) : string := String.concat "&" (map encode_pair (pairs m)).

(** A parsed URL. [pu_base] is everything before the query (scheme, host, path).
    Used at authcode.go:150-163. *)
Record purl := PUrl { pu_base : string; pu_query : string; pu_frag : string }.
(** strings.Cut with a one-byte separator. Used at authcode.go:150-163. *)
Fixpoint cut (c : ascii) (s : string) : string * string :=
  match s with
  | EmptyString => (EmptyString, EmptyString)
  | String d r => if Ascii.eqb c d then (EmptyString, r) else let '(a, b) := cut c r in (String d a, b)
  end.
(** url.Parse: [canon] parses and reassembles what precedes the query (None: parse error).
    Escaping in the fragment is not modelled. Used at authcode.go:150-163. *)
Definition url_parse (canon : string -> option string) (s : string) : option purl :=
  let '(rest, frag) := cut "#" s in
  let '(base, q) := cut "?" rest in
  match canon base with Some b => Some (PUrl b q frag) | None => None end.
(** URL.String (ForceQuery is only relevant for an empty query). Used at authcode.go:150-163. *)
Definition url_string (u : purl) : string :=
  pu_base u ++ (if String.eqb (pu_query u) "" then "" else "?" ++ pu_query u)
            ++ (if String.eqb (pu_frag u) "" then "" else "#" ++ pu_frag u).

(** ** Maps are shared with the caller *)

(** The values of a map[string]any are identified with their JSON; None: a value that cannot
    be marshalled (a channel, NaN, ...). Used at authcode.go:70-123. *)
Inductive cell := CAny (m : smap (option json)) | CVals (v : values).
Definition heap := list cell.

(** What the functions use of the outside: time.Now().Unix(), uuid.NewRandom (None: error),
    jwx.SignPayload with the leaf's key (None: error), url.Parse, http.PostForm with the
    encoded form (None: no answer, or a body that is not JSON). Used at authcode.go:70-210. *)
Record oracles := Oracles {
  lo_now : Z; lo_uuid : option string; lo_sign : json -> option string; lo_canon : string -> option string;
  lo_post : string -> string -> option json }.

(** json.Marshal of a map[string]any. Used at authcode.go:70-123. *)
Fixpoint marshal_map (m : smap (option json)) : option (list (string * json)) :=
  match m with
  | [] => Some []
  | (k, Some j) :: m' => match marshal_map m' with Some o => Some ((k, j) :: o) | None => None end
  | (_, None) :: _ => None
  end.

(** RequestObjectProducer: authcode.go:50-67. *)
Record producer := Producer { rp_id : string; rp_lifetime : Z }.

Definition jint (n : Z) : json := JNum (inject_Z n).

(** The claims after authcode.go:77-79 *)
Definition own_claims (id : string) (m : smap (option json)) : smap (option json) :=
  remove_key "client_secret" (remove_key "sub" (insert "client_id" (Some (JStr id)) (insert "iss" (Some (JStr id)) m))).

(** RequestObject: authcode.go:70-98. [l] is the caller's map (None: nil). The result and
    the maps afterwards. *)
Definition request_object (x : oracles) (rp : producer) (h : heap) (l : option nat) : res string * heap :=
  match l with
  | None => (Err, h)
  | Some a =>
      match nth_error h a with
      | Some (CAny m) =>
          if has "aud" m then
            let m1 := own_claims (rp_id rp) m in
            match (if has "jti" m1 then Some m1
                   else match lo_uuid x with Some u => Some (insert "jti" (Some (JStr u)) m1) | None => None end) with
            | None => (Err, set_nth a (CAny m1) h)
            | Some m2 =>
                let m3 := insert "exp" (Some (jint (wrap64 (lo_now x + rp_lifetime rp)%Z))) (insert "iat" (Some (jint (lo_now x))) m2) in
                let h' := set_nth a (CAny m3) h in
                match marshal_map m3 with
                | None => (Err, h')
                | Some o => match lo_sign x (JObj o) with Some jwt => (Ok jwt, h') | None => (Err, h') end
                end
            end
          else (Err, h)
      | _ => (Err, h)
      end
  end.

(** ClientAssertion: authcode.go:101-122 *)
Definition client_assertion (x : oracles) (rp : producer) (aud : string) : res string :=
  match lo_uuid x with
  | None => Err
  | Some u =>
      match lo_sign x (JObj [("iss", JStr (rp_id rp)); ("sub", JStr (rp_id rp)); ("iat", jint (lo_now x));
                             ("exp", jint (wrap64 (lo_now x + rp_lifetime rp)%Z)); ("aud", JStr aud); ("jti", JStr u)]) with
      | Some jwt => Ok jwt
      | None => Err
      end
  end.

(** FederationLeaf: federation.go:34-38; NewFederationLeaf gives the producer its own entity
    id and the lifetime 60 (federation.go:75). *)
Record leaf := Leaf { lf_id : string; lf_anchors : list anchor; lf_producer : producer }.
Definition new_leaf (id : string) (tas : list anchor) : leaf := Leaf id tas (Producer id 60).

Definition op_str (name : string) (op : emeta) : string :=
  match em_get name op with Some v => str_of v | None => "" end.

(** authcode.go:132-139: one parameter. *)
Definition param (v : option (list string)) : option json :=
  match v with
  | Some [x] => Some (JStr x)
  | Some l => Some (JArr (map JStr l))
  | None => Some JNull
  end.
Definition read_values (h : heap) (l : option nat) : values :=
  match l with Some a => match nth_error h a with Some (CVals v) => v | _ => [] end | None => [] end.

(** GetAuthorizationURL: authcode.go:125-166. A nil OP metadata pointer is dereferenced in
    line 140. *)
Definition get_authorization_url (fuel : nat) (e : env) (p : list nat) (x : oracles) (f : leaf) (h : heap)
           (issuer redirect state scope : string) (additional : option nat) : run string * heap :=
  match resolve_op fuel e p (lf_anchors f) issuer with
  | OutOfFuel => (OutOfFuel, h)
  | Done Panic => (Done Panic, h)
  | Done Err => (Done Err, h)
  | Done (Ok None) => (Done Panic, h)
  | Done (Ok (Some op)) =>
      let m0 := fold_left (fun m kv => insert (fst kv) (param (snd kv)) m) (read_values h additional) [] in
      let m1 := insert "scope" (Some (JStr scope)) (insert "response_type" (Some (JStr "code"))
                  (insert "state" (Some (JStr state)) (insert "redirect_uri" (Some (JStr redirect))
                    (insert "aud" (Some (JStr (op_str "Issuer" op))) m0)))) in
      let '(r, h') := request_object x (lf_producer f) (h ++ [CAny m1])%list (Some (List.length h)) in
      match r with
      | Panic => (Done Panic, h')
      | Err => (Done Err, h')
      | Ok ro =>
          match url_parse (lo_canon x) (op_str "AuthorizationEndpoint" op) with
          | None => (Done Err, h')
          | Some u =>
              let q := vset "scope" scope (vset "redirect_uri" redirect (vset "response_type" "code"
                         (vset "client_id" (lf_id f) (vset "request" ro [])))) in
              (Done (Ok (url_string (PUrl (pu_base u) (encode q) (pu_frag u)))), h')
          end
      end
  end.

(** OIDCErrorResponse, OIDCTokenResponse: authcode.go:19-48. expires_in is an int64. Simplification:
    an integral number is taken to be written as an integer (1.0 and 1e3 are errors in Go). *)
Definition int_codec : codec gval :=
  Codec (GRaw (JNum 0)) (fun v => match v with GRaw (JNum q) => Qeq_bool q 0 | _ => false end)
        (fun v => match v with GRaw j => j | _ => JNull end)
        (fun old j => match j with
                      | JNull => Ok old
                      | JNum q => if Pos.eqb (Qden (Qred q)) 1 && Z.eqb (wrap64 (Qnum (Qred q))) (Qnum (Qred q)) then Ok (GRaw j) else Err
                      | _ => Err
                      end).
Definition error_fields : list (jfield gval) := [ JField "error" false str_codec; JField "error_description" true str_codec ].
Definition token_fields : list (jfield gval) :=
  [ JField "access_token" false str_codec; JField "token_type" false str_codec; JField "expires_in" false int_codec;
    JField "refresh_token" false str_codec; JField "scope" false str_codec; JField "id_token" false str_codec ].
(** json.Unmarshal into a struct without additional claims. Used at authcode.go:19-47,165-210. *)
Definition unmarshal {V} (fs : list (jfield V)) (j : json) : res (list V) :=
  match j with JNull => Ok (zeros fs) | JObj o => dec_fields fs o (zeros fs) | _ => Err end.

Inductive exchanged :=
| Tokens (vals : list gval) (extra : smap json)
| Refused (vals : list gval).

(** CodeExchange: authcode.go:169-218. [additional] is modified in place. *)
Definition code_exchange (fuel : nat) (e : env) (p : list nat) (x : oracles) (f : leaf) (h : heap)
           (issuer code redirect : string) (additional : option nat) : run exchanged * heap :=
  match resolve_op fuel e p (lf_anchors f) issuer with
  | OutOfFuel => (OutOfFuel, h)
  | Done Panic => (Done Panic, h)
  | Done Err => (Done Err, h)
  | Done (Ok op) =>
      let m1 := vset "client_id" (lf_id f) (vset "redirect_uri" redirect (vset "code" code
                  (vset "grant_type" "authorization_code" (read_values h additional)))) in
      let put m := match additional with Some a => set_nth a (CVals m) h | None => h end in
      match op with
      | None => (Done Panic, put m1)
      | Some op =>
          match client_assertion x (lf_producer f) (op_str "TokenEndpoint" op) with
          | Panic => (Done Panic, put m1)
          | Err => (Done Err, put m1)
          | Ok jwt =>
              let m2 := vset "client_assertion" jwt
                          (vset "client_assertion_type" "urn:ietf:params:oauth:client-assertion-type:jwt-bearer" m1) in
              (match lo_post x (op_str "TokenEndpoint" op) (encode m2) with
               | None => Done Err
               | Some body =>
                   match unmarshal error_fields body with
                   | Ok ((GStr er :: _) as vs) =>
                       if String.eqb er "" then
                         match unmarshal_with_extra token_fields body (zeros token_fields) with
                         | Ok (ts, ex) => Done (Ok (Tokens ts ex))
                         | _ => Done Err
                         end
                       else Done (Ok (Refused vs))
                   | _ => Done Err
                   end
               end, put m2)
          end
      end
  end.
