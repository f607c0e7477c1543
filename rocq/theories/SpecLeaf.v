(** Specification of request objects, authorization requests and code exchanges. *)
From Coq Require Import QArith.
From Verif Require Import Base GoVal Metadata Chain Resolver FloatTime Json TrustMark Leaf.
Local Open Scope nat_scope.
Local Open Scope string_scope.

(** ** Reading a query string (or a posted form): application/x-www-form-urlencoded *)
Definition unhex (c : ascii) : option nat :=
  let n := nat_of_ascii c in
  if Nat.leb 48 n && Nat.leb n 57 then Some (n - 48)
  else if Nat.leb 65 n && Nat.leb n 70 then Some (n - 55)
  else if Nat.leb 97 n && Nat.leb n 102 then Some (n - 87)
  else None.
Fixpoint unescape (s : string) : option string :=
  match s with
  | EmptyString => Some EmptyString
  | String c r =>
      if Ascii.eqb c "%" then
        match r with
        | String c1 (String c2 r') =>
            match unhex c1, unhex c2, unescape r' with
            | Some a, Some b, Some t => Some (String (ascii_of_nat (16 * a + b)) t)
            | _, _, _ => None
            end
        | _ => None
        end
      else match unescape r with
           | Some t => Some (String (if Ascii.eqb c "+" then " " else c)%char t)
           | None => None
           end
  end.
Fixpoint split (c : ascii) (s : string) : list string :=
  match s with
  | EmptyString => [EmptyString]
  | String d r => if Ascii.eqb c d then EmptyString :: split c r
                  else match split c r with x :: l => String d x :: l | [] => [String d EmptyString] end
  end.
Definition read_pair (s : string) : list (string * string) :=
  if String.eqb s "" then []
  else let '(k, v) := cut "=" s in
       match unescape k, unescape v with Some k', Some v' => [(k', v')] | _, _ => [] end.
Definition read_query (s : string) : list (string * string) := flat_map read_pair (split "&" s).
Definition values_of (k : string) (l : list (string * string)) : list string :=
  map snd (filter (fun kv => String.eqb k (fst kv)) l).
(** The query and the rest of a URL. *)
Definition query_of (u : string) : string := snd (cut "?" (fst (cut "#" u))).
Definition base_of (u : string) : string := fst (cut "?" (fst (cut "#" u))).
Definition fragment_of (u : string) : string := snd (cut "#" u).
(** Parsing and reassembling a URL keeps the part before the query in that part. *)
Definition keeps_base (canon : string -> option string) : Prop :=
  forall b b', canon b = Some b' -> cut "?" b' = (b', "") /\ cut "#" b' = (b', "").

(** ** Claims *)
Definition mandated : list string := ["iss"; "client_id"; "iat"; "exp"; "jti"; "sub"; "client_secret"].
(** The claims the library sets, for the entity [id] at [now]. *)
Definition producer_claims (id : string) (now lifetime : Z) (o : smap json) : Prop :=
  NoDup (keys o) /\
  lookup "iss" o = Some (JStr id) /\ lookup "client_id" o = Some (JStr id) /\
  lookup "iat" o = Some (jint now) /\
  ((- 2 ^ 63 <= now + lifetime < 2 ^ 63)%Z -> lookup "exp" o = Some (jint (now + lifetime))) /\
  (exists j, lookup "jti" o = Some j) /\
  lookup "sub" o = None /\ lookup "client_secret" o = None.
(** The claims of a request object made from the caller's claims [given]. *)
Definition request_claims (id : string) (now lifetime : Z) (given : smap (option json)) (o : smap json) : Prop :=
  producer_claims id now lifetime o /\
  forall k, ~ In k mandated -> lookup k o = match lookup k given with Some j => j | None => None end.

(** An additional parameter as a claim: a string if it has one value, else an array. *)
Definition as_claim (v : option (list string)) : json :=
  match v with None => JNull | Some [s] => JStr s | Some l => JArr (map JStr l) end.
(** The claims of an authorization request. *)
Definition authorization_claims (aud redirect state scope : string) (additional : values) (o : smap json) : Prop :=
  lookup "aud" o = Some (JStr aud) /\ lookup "redirect_uri" o = Some (JStr redirect) /\
  lookup "state" o = Some (JStr state) /\ lookup "scope" o = Some (JStr scope) /\
  lookup "response_type" o = Some (JStr "code") /\
  (forall k, ~ In k (["aud"; "redirect_uri"; "state"; "scope"; "response_type"] ++ mandated)%list ->
     lookup k o = option_map as_claim (lookup k additional)).

(** A map of the caller. *)
Definition any_at (h : heap) (l : option nat) (m : smap (option json)) : Prop := exists a, l = Some a /\ nth_error h a = Some (CAny m).
(** The maps that existed before are unchanged. *)
Definition preserved (h h' : heap) : Prop := forall a, a < List.length h -> nth_error h' a = nth_error h a.

(** The parameters an authorization URL has. *)
Definition url_params (id redirect scope ro k : string) : list string :=
  if String.eqb k "request" then [ro] else if String.eqb k "client_id" then [id]
  else if String.eqb k "response_type" then ["code"] else if String.eqb k "redirect_uri" then [redirect]
  else if String.eqb k "scope" then [scope] else [].
(** The parameters of a token request with client assertion [jwt]. *)
Definition token_params (id code redirect jwt : string) (additional : values) (k : string) : list string :=
  if String.eqb k "grant_type" then ["authorization_code"] else if String.eqb k "code" then [code]
  else if String.eqb k "redirect_uri" then [redirect] else if String.eqb k "client_id" then [id]
  else if String.eqb k "client_assertion_type" then ["urn:ietf:params:oauth:client-assertion-type:jwt-bearer"]
  else if String.eqb k "client_assertion" then [jwt]
  else match lookup k additional with Some v => items v | None => [] end.
(** The claims of a client assertion (RFC 7523). *)
Definition assertion_claims (id aud : string) (now lifetime : Z) (o : smap json) : Prop :=
  NoDup (keys o) /\ lookup "iss" o = Some (JStr id) /\ lookup "sub" o = Some (JStr id) /\ lookup "aud" o = Some (JStr aud) /\
  lookup "iat" o = Some (jint now) /\
  ((- 2 ^ 63 <= now + lifetime < 2 ^ 63)%Z -> lookup "exp" o = Some (jint (now + lifetime))) /\
  exists u, lookup "jti" o = Some (JStr u).
