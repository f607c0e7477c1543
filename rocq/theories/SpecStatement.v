(** Specification vocabulary: what an entity statement or resolve response says, claim by
    claim (OpenID Federation 1.0, sections 3 and 8.3). *)
From Coq Require Import QArith.
From Verif Require Import Base GoVal Policy Schema Metadata SpecPolicy SpecMetadata Chain FloatTime SpecTime Json SpecJson TrustMark Leaf Config SpecDecode.
From Verif Require Import GoVal.
Local Open Scope nat_scope.
Local Open Scope string_scope.

(** The claim with the given name: every occurrence is well formed and the last one is the
    value [a]; [absent] if there is none. *)
Definition says {A} (means : json -> A -> Prop) (absent : A) (j : json) (name : string) (a : A) : Prop :=
  (forall x, In x (members name j) -> exists b, means x b) /\
  match rev (members name j) with [] => a = absent | x :: _ => means x a end.

(** null stands for an absent value. *)
Definition optional {A} (means : json -> A -> Prop) (x : json) (a : option A) : Prop :=
  match a with None => x = JNull | Some b => x <> JNull /\ means x b end.

(** An array of texts (null counts as the empty text); null for no array. *)
Definition text_element (x : json) (s : string) : Prop := x = JStr s \/ (x = JNull /\ s = "").
Definition text_list (x : json) (l : option (list string)) : Prop :=
  match l with None => x = JNull | Some l => exists xs, x = JArr xs /\ Forall2 text_element xs l end.
Definition texts_or_none (x : json) (l : list string) : Prop := exists o, text_list x o /\ l = match o with Some m => m | None => [] end.

(** An integer of 64 bits. *)
Definition an_int (x : json) (z : Z) : Prop := exists q, x = JNum q /\ (q == inject_Z z)%Q /\ (- 2 ^ 63 <= z < 2 ^ 63)%Z.

(** A JSON object as a map whose values are read with [means]; null is an empty one. *)
Definition a_map {A} (means : json -> A -> Prop) (x : json) (m : smap A) : Prop :=
  is_object x /\ NoDup (keys m) /\
  (forall o, x = JObj o -> forall kv, In kv o -> exists a, means (snd kv) a) /\
  forall k, match claim k x with Some y => exists a, lookup k m = Some a /\ means y a | None => lookup k m = None end.

(** A key set; the empty one counts as none. *)
Definition key_set (kc : keycodec (list string)) (x : json) (ks : jwks) : Prop :=
  match ks with
  | None => x = JNull \/ exists k, kc_dec kc x = Some k /\ kc_len kc k = 0
  | Some k => x <> JNull /\ kc_dec kc x = Some k /\ kc_len kc k <> 0
  end.

(** A JSON value as a Go value. *)
Inductive same_value : json -> gval -> Prop :=
| same_null : same_value JNull VNil
| same_bool b : same_value (JBool b) (VBool b)
| same_number q z : (q == inject_Z z)%Q -> same_value (JNum q) (VFloat z)
| same_text s : same_value (JStr s) (VStr s)
| same_array xs vs : Forall2 same_value xs vs -> same_value (JArr xs) (VSlice TAny false vs)
| same_object o kv : NoDup (keys kv) ->
    (forall k y, lookup k (rev o) = Some y -> exists v, lookup k kv = Some v /\ same_value y v) ->
    (forall k, lookup k (rev o) = None -> lookup k kv = None) ->
    same_value (JObj o) (VMap TAny false kv).

(** An ordinary document: the names of the members of an object differ by more than case, and
    the numbers are integers. *)
Inductive plain : json -> Prop :=
| plain_null : plain JNull
| plain_bool b : plain (JBool b)
| plain_number q z : (q == inject_Z z)%Q -> plain (JNum q)
| plain_text s : plain (JStr s)
| plain_array xs : Forall plain xs -> plain (JArr xs)
| plain_object o : NoDup (map fold_name (keys o)) -> Forall (fun kv => plain (snd kv)) o -> plain (JObj o).

(** The value of a metadata attribute of the given type. *)
Fixpoint attribute (t : gty) (x : json) (v : gval) {struct t} : Prop :=
  match t with
  | TAny => same_value x v
  | TBool => (exists b, x = JBool b /\ v = VBool b) \/ (x = JNull /\ v = VBool false)
  | TInt => (exists q z, x = JNum q /\ (q == inject_Z z)%Q /\ v = VInt z) \/ (x = JNull /\ v = VInt 0)
  | TFloat => (exists q z, x = JNum q /\ (q == inject_Z z)%Q /\ v = VFloat z) \/ (x = JNull /\ v = VFloat 0)
  | TStr => (exists s, x = JStr s /\ v = VStr s) \/ (x = JNull /\ v = VStr "")
  | TJwks => (exists o w, x = JObj o /\ same_value x w /\ v = VJwks (Some w)) \/ (x = JNull /\ v = VJwks None)
  | TMap t' => (exists o kv, x = JObj o /\ v = VMap t' false kv /\ NoDup (keys kv) /\
                  forall k, match claim k x with Some y => exists a, lookup k kv = Some a /\ attribute t' y a | None => lookup k kv = None end)
               \/ (x = JNull /\ v = VMap t' true [])
  | TSlice t' => (exists xs vs, x = JArr xs /\ v = VSlice t' false vs /\ Forall2 (attribute t') xs vs)
                 \/ (x = JNull /\ v = VSlice t' true [])
  end.

(** Metadata of one entity type. Absent attributes are read like null. Names are compared
    without regard to case. *)
Definition stated (name : string) (x : json) : json := last (members name x) JNull.
Definition attribute_says (x : json) (r : frow) (m : emeta) : Prop :=
  exists v, em_tag (fr_tag r) m = Some v /\ attribute (fr_ty r) (stated (fr_tag r) x) v.
Record entity_says (sch : list frow) (x : json) (m : emeta) : Prop := EntitySays {
  es_object : exists o, x = JObj o;
  es_rows : map fst (em_fields m) = sch;
  es_attributes : forall r, In r sch -> fr_tag r <> "-" -> attribute_says x r m;
  es_extra_nodup : NoDup (keys (extra_value m));
  es_extra : forall k, match (if mem k (map fr_tag sch) then None else claim k x) with
                       | Some y => exists v, lookup k (extra_value m) = Some v /\ same_value y v
                       | None => k <> "-" \/ claim k x = None -> lookup k (extra_value m) = None end }.

Definition entity_type_names : list string :=
  ["openid_provider"; "openid_relying_party"; "oauth_authorization_server"; "oauth_client"; "oauth_resource"; "federation_entity"].

(** Metadata: one member for each entity type; other members are kept. *)
Record metadata_says (x : json) (m : metadata) : Prop := MetadataSays {
  ms_obj : is_object x;
  ms_op : says (optional (entity_says op_schema)) None x "openid_provider" (md_op m);
  ms_rp : says (optional (entity_says rp_schema)) None x "openid_relying_party" (md_rp m);
  ms_as : says (optional (entity_says op_schema)) None x "oauth_authorization_server" (md_as m);
  ms_oc : says (optional (entity_says rp_schema)) None x "oauth_client" (md_oc m);
  ms_pr : says (optional (entity_says pr_schema)) None x "oauth_resource" (md_pr m);
  ms_fe : says (optional (entity_says fe_schema)) None x "federation_entity" (md_fe m);
  ms_extra_nodup : NoDup (keys (md_extra m));
  ms_extra : forall k, match (if mem k entity_type_names then None else claim k x) with
                       | Some y => exists v, lookup k (md_extra m) = Some v /\ same_value y v
                       | None => lookup k (md_extra m) = None end }.

(** A metadata policy: for each attribute the operators with their operands. *)
Definition operands (x : json) (e : entry) : Prop :=
  is_object x /\ NoDup (keys e) /\
  forall k, match claim k x with Some y => exists v, lookup k e = Some v /\ same_value y v | None => lookup k e = None end.
Definition policy_means (x : json) (p : gpolicy) : Prop := optional (a_map operands) x p.
Record policies_says (x : json) (p : policies) : Prop := PoliciesSays {
  ps_obj : is_object x;
  ps_known : forall o, x = JObj o -> forall k, In k (keys o) -> In k entity_type_names;
  ps_op : says policy_means None x "openid_provider" (mp_op p);
  ps_rp : says policy_means None x "openid_relying_party" (mp_rp p);
  ps_as : says policy_means None x "oauth_authorization_server" (mp_as p);
  ps_oc : says policy_means None x "oauth_client" (mp_oc p);
  ps_pr : says policy_means None x "oauth_resource" (mp_pr p);
  ps_fe : says policy_means None x "federation_entity" (mp_fe p);
  ps_extra : mp_extra p = [] }.

(** Constraints. *)
Record naming_says (x : json) (n : naming) : Prop := NamingSays {
  ns_obj : is_object x;
  ns_permitted : says text_list None x "permitted" (nc_permitted n);
  ns_excluded : says texts_or_none [] x "excluded" (nc_excluded n) }.
Record constraints_says (x : json) (c : constraints) : Prop := ConstraintsSays {
  cs_obj : is_object x;
  cs_max : says (optional an_int) None x "max_path_length" (co_max_path c);
  cs_naming : says (optional naming_says) None x "naming_constraints" (co_naming c);
  cs_types : says text_list None x "allowed_entity_types" (co_types c) }.

(** Trust marks and their owners. *)
Record owner_says (kc : keycodec (list string)) (x : json) (o : string * jwks) : Prop := OwnerSays {
  os_obj : is_object x;
  os_sub : says_text x "sub" (fst o);
  os_keys : says (key_set kc) None x "jwks" (snd o) }.
Definition mark_entry (x : json) (m : string * string) : Prop := exists t, info_says x t /\ m = (ti_type t, ti_jwt t).
Definition mark_list (x : json) (l : list (string * string)) : Prop :=
  (x = JNull /\ l = []) \/ exists xs, x = JArr xs /\ Forall2 mark_entry xs l.

(** An entity statement with payload [j]. The claims aud, source_endpoint and trust_anchor_id
    only have to be texts. *)
Record statement_says (kc : keycodec (list string)) (j : json) (s : stmt) : Prop := StatementSays {
  ss_obj : is_object j;
  ss_iss : says_text j "iss" (st_iss s); ss_sub : says_text j "sub" (st_sub s);
  ss_iat : says_time j "iat" (st_iat s); ss_exp : says_time j "exp" (st_exp s);
  ss_jwks : says (key_set kc) None j "jwks" (st_jwks s);
  ss_hints : says texts_or_none [] j "authority_hints" (st_hints s);
  ss_metadata : says (optional metadata_says) None j "metadata" (st_metadata s);
  ss_policy : says (optional policies_says) None j "metadata_policy" (st_policy s);
  ss_constraints : says (optional constraints_says) None j "constraints" (st_constraints s);
  ss_crit : says texts_or_none [] j "crit" (st_crit s);
  ss_policy_crit : says texts_or_none [] j "metadata_policy_crit" (st_policy_crit s);
  ss_marks : says mark_list [] j "trust_marks" (st_marks s);
  ss_issuers : says (a_map texts_or_none) [] j "trust_mark_issuers" (st_mark_issuers s);
  ss_owners : says (a_map (owner_says kc)) [] j "trust_mark_owners" (st_mark_owners s);
  ss_aud : exists t, says_text j "aud" t;
  ss_source : exists t, says_text j "source_endpoint" t;
  ss_anchor : exists t, says_text j "trust_anchor_id" t }.

(** A resolve response with payload [j]; the chain consists of JWTs. *)
Definition info_entry (x : json) (t : info) : Prop := info_says x t /\ ti_mark t = None.
Definition info_list (x : json) (l : list info) : Prop :=
  (x = JNull /\ l = []) \/ exists xs, x = JArr xs /\ Forall2 info_entry xs l.
Definition jwt_list (jws : string -> bool) (x : json) (l : list string) : Prop :=
  texts_or_none x l /\ forall t, In t l -> jws t = true.
Record response_says (jws : string -> bool) (j : json) (p : payload) : Prop := ResponseSays {
  rs_obj : is_object j;
  rs_metadata : says (optional metadata_says) None j "metadata" (pl_metadata p);
  rs_marks : says info_list [] j "trust_marks" (pl_marks p);
  rs_chain : says (jwt_list jws) [] j "trust_chain" (pl_chain p) }.

(** The JWT is an entity statement whose payload says [s], and [signer] has signed it. *)
Definition signed_statement (parse : string -> option (string * json)) (kc : keycodec (list string))
           (signed : string -> string -> Prop) (signer : string) (s : stmt) : Prop :=
  exists j, parse (st_jwt s) = Some ("entity-statement+jwt", j) /\ signed signer (st_jwt s) /\ (plain j -> statement_says kc j s).
