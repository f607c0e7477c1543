(** Specification vocabulary: what the reader of a signed entity statement should find. *)
From Coq Require Import QArith.
From Verif Require Import Base GoVal Policy Schema Metadata SpecMetadata Chain FloatTime SpecTime Json SpecJson TrustMark Leaf Config SpecConfig Jwt Encode.
From Verif Require Import GoVal.
Local Open Scope nat_scope.
Local Open Scope string_scope.

(** JSON does not know Go's types: a value as it is read into an interface{}. Integers are read
    as float64, typed lists and maps as untyped ones, nil as null. *)
Fixpoint as_read (v : gval) : gval :=
  match v with
  | VInt z => VFloat z
  | VJwks None => VNil
  | VJwks (Some w) => as_read w
  | VMap _ true _ | VSlice _ true _ => VNil
  | VMap _ false kv => VMap TAny false (map (fun x => (fst x, as_read (snd x))) kv)
  | VSlice _ false l => VSlice TAny false (map as_read l)
  | _ => v
  end.
Definition map_read (m : smap gval) : smap gval := map (fun kv => (fst kv, as_read (snd kv))) m.

(** The maps in a value are maps: no key occurs twice. *)
Inductive proper : gval -> Prop :=
| proper_nil : proper VNil
| proper_bool b : proper (VBool b)
| proper_int z : proper (VInt z)
| proper_float z : proper (VFloat z)
| proper_text s : proper (VStr s)
| proper_no_keys : proper (VJwks None)
| proper_keys w : proper w -> proper (VJwks (Some w))
| proper_map t n kv : NoDup (keys kv) -> Forall (fun x => proper (snd x)) kv -> proper (VMap t n kv)
| proper_slice t n l : Forall proper l -> proper (VSlice t n l).

(** A value of the Go type [t]; nil lists and maps have no elements. Key sets are JSON objects
    (see GoVal.v). *)
Fixpoint of_type (t : gty) (v : gval) {struct t} : Prop :=
  match t with
  | TAny => proper v /\ as_read v = v
  | TBool => exists b, v = VBool b
  | TInt => exists z, v = VInt z
  | TFloat => exists z, v = VFloat z
  | TStr => exists s, v = VStr s
  | TJwks => v = VJwks None \/ exists kv, v = VJwks (Some (VMap TAny false kv)) /\ proper (VMap TAny false kv) /\ as_read (VMap TAny false kv) = VMap TAny false kv
  | TMap t' => v = VMap t' true [] \/ exists kv, v = VMap t' false kv /\ NoDup (keys kv) /\ (forall k w, In (k, w) kv -> of_type t' w)
  | TSlice t' => v = VSlice t' true [] \/ exists l, v = VSlice t' false l /\ forall w, In w l -> of_type t' w
  end.

(** Additional members: names that differ from those of the fields by more than case. *)
Definition apart {A} (names : list string) (extra : smap A) : Prop :=
  NoDup (keys extra) /\ forall k, In k (keys extra) -> ~ In (fold_name k) (map fold_name names).

(** Metadata of one entity type as Go code can build it. *)
Record entity_ok (sch : list frow) (m : emeta) : Prop := EntityOk {
  eo_rows : map fst (em_fields m) = sch;
  eo_values : forall r v, In (r, v) (em_fields m) -> fr_tag r <> "-" -> of_type (fr_ty r) v;
  eo_extra : apart (map fr_tag sch) (extra_value m);
  eo_proper : Forall (fun kv => proper (snd kv)) (extra_value m) }.

(** The same attribute: an empty list or map may be read as a missing one. *)
Definition same_attr (v v' : gval) : Prop :=
  v' = v \/ (exists t, v = VSlice t false [] /\ v' = VSlice t true []) \/ (exists t, v = VMap t false [] /\ v' = VMap t true []).
(** Empty values of attributes that may be left out are left out. *)
Definition blank (v : gval) : Prop :=
  v = VBool false \/ v = VInt 0 \/ v = VFloat 0 \/ v = VStr "" \/ v = VJwks None \/ (exists t n, v = VSlice t n []) \/ (exists t n, v = VMap t n []).
Definition no_pointer (v : gval) : Prop := v = VJwks None \/ (exists t, v = VSlice t true []) \/ (exists t, v = VMap t true []).
Record entity_read (sch : list frow) (m m' : emeta) : Prop := EntityRead {
  er_rows : map fst (em_fields m') = sch;
  er_values : forall r v, In (r, v) (em_fields m) -> fr_tag r <> "-" -> exists v', em_tag (fr_tag r) m' = Some v' /\ same_attr v v';
  er_set : forall r v, In (r, v) (em_fields m) -> fr_tag r <> "-" -> ~ In (fr_name r) (keys (extra_value m)) ->
           (attr_set (fr_tag r) m' = true <-> ~ (fr_omitempty r = true /\ blank v) /\ ~ no_pointer v);
  er_extra_nodup : NoDup (keys (extra_value m'));
  er_extra : forall k, lookup k (extra_value m') = option_map as_read (lookup k (extra_value m)) }.

(** A missing value is read as missing, a present one as the same. *)
Definition both {A} (R : A -> A -> Prop) (x x' : option A) : Prop :=
  match x, x' with None, None => True | Some a, Some a' => R a a' | _, _ => False end.

Definition given {A} (P : A -> Prop) (x : option A) : Prop := forall a, x = Some a -> P a.
Definition type_names : list string :=
  ["openid_provider"; "openid_relying_party"; "oauth_authorization_server"; "oauth_client"; "oauth_resource"; "federation_entity"].
Record metadata_ok (m : metadata) : Prop := MetadataOk {
  mo_op : given (entity_ok op_schema) (md_op m); mo_rp : given (entity_ok rp_schema) (md_rp m);
  mo_as : given (entity_ok op_schema) (md_as m); mo_oc : given (entity_ok rp_schema) (md_oc m);
  mo_pr : given (entity_ok pr_schema) (md_pr m); mo_fe : given (entity_ok fe_schema) (md_fe m);
  mo_extra : apart type_names (md_extra m); mo_proper : Forall (fun kv => proper (snd kv)) (md_extra m) }.
Record metadata_read (m m' : metadata) : Prop := MetadataRead {
  mr_op : both (entity_read op_schema) (md_op m) (md_op m'); mr_rp : both (entity_read rp_schema) (md_rp m) (md_rp m');
  mr_as : both (entity_read op_schema) (md_as m) (md_as m'); mr_oc : both (entity_read rp_schema) (md_oc m) (md_oc m');
  mr_pr : both (entity_read pr_schema) (md_pr m) (md_pr m'); mr_fe : both (entity_read fe_schema) (md_fe m) (md_fe m');
  mr_extra : md_extra m' = map_read (md_extra m) }.

(** Policies. A policy for no attribute is the same as none. *)
Definition gpolicy_ok (p : gpolicy) : Prop :=
  given (fun m => NoDup (keys m) /\ Forall (fun a => NoDup (keys (snd a)) /\ Forall (fun kv => proper (snd kv)) (snd a)) m) p.
Definition policy_read (p : gpolicy) : gpolicy :=
  match p with
  | Some (a :: m) => Some (map (fun a => (fst a, map_read (snd a))) (a :: m))
  | _ => None
  end.
Definition policies_ok (p : policies) : Prop :=
  gpolicy_ok (mp_op p) /\ gpolicy_ok (mp_rp p) /\ gpolicy_ok (mp_as p) /\ gpolicy_ok (mp_oc p) /\ gpolicy_ok (mp_pr p) /\ gpolicy_ok (mp_fe p).
Definition policies_read (p p' : policies) : Prop :=
  p' = Policies (policy_read (mp_op p)) (policy_read (mp_rp p)) (policy_read (mp_as p))
                (policy_read (mp_oc p)) (policy_read (mp_pr p)) (policy_read (mp_fe p)) [].

(** Constraints: no list that must not be empty is, and the path length is an int. *)
Definition constraints_ok (c : constraints) : Prop :=
  co_types c <> Some [] /\ given (fun n => nc_permitted n <> Some []) (co_naming c) /\ given (fun z => (- 2 ^ 63 <= z < 2 ^ 63)%Z) (co_max_path c).

(** A key set that survives JSON (C97). *)
Definition keys_ok (kc : keycodec (list string)) (k : jwks) : Prop := given (fun k => keeps kc k /\ kc_len kc k <> 0) k.
(** Time stamps are numbers (float64) of seconds: whole seconds, 1823 to 2116, are kept, others
    up to 1.5 microseconds (C50), 1677 to 2262. *)
Definition whole (t : time) : Prop := exists s, t = seconds s /\ (Z.abs s <= 4611686018)%Z.
Definition in_range (t : time) : Prop := (- 2 ^ 63 <= t < 2 ^ 63)%Z.
Definition time_read (t t' : time) : Prop := (Z.abs (t' - t) <= 1500)%Z /\ (whole t -> t' = t).

Definition claim_names : list string :=
  ["iss"; "sub"; "iat"; "exp"; "jwks"; "aud"; "authority_hints"; "metadata"; "metadata_policy"; "constraints"; "crit";
   "metadata_policy_crit"; "trust_marks"; "trust_mark_issuers"; "trust_mark_owners"; "source_endpoint"; "trust_anchor_id"].
Record payload_ok (kc : keycodec (list string)) (p : statement_payload) : Prop := PayloadOk {
  po_iat : in_range (st_iat (sp_claims p)); po_exp : in_range (st_exp (sp_claims p));
  po_jwks : keys_ok kc (st_jwks (sp_claims p));
  po_metadata : given metadata_ok (st_metadata (sp_claims p));
  po_policies : given policies_ok (st_policy (sp_claims p));
  po_no_other_policies : given (fun q => mp_extra q = []) (st_policy (sp_claims p));
  po_constraints : given constraints_ok (st_constraints (sp_claims p));
  po_issuers : NoDup (keys (st_mark_issuers (sp_claims p)));
  po_owners : NoDup (keys (st_mark_owners (sp_claims p))) /\ Forall (fun o => keys_ok kc (snd (snd o))) (st_mark_owners (sp_claims p));
  po_extra : apart claim_names (sp_extra p) }.

(** The statement [s] that is read says what the payload [p] says. *)
Record statement_read (p : statement_payload) (s : stmt) : Prop := StatementRead {
  sr_iss : st_iss s = st_iss (sp_claims p); sr_sub : st_sub s = st_sub (sp_claims p);
  sr_iat : time_read (st_iat (sp_claims p)) (st_iat s); sr_exp : time_read (st_exp (sp_claims p)) (st_exp s);
  sr_jwks : st_jwks s = st_jwks (sp_claims p); sr_hints : st_hints s = st_hints (sp_claims p);
  sr_metadata : both metadata_read (st_metadata (sp_claims p)) (st_metadata s);
  sr_policy : both policies_read (st_policy (sp_claims p)) (st_policy s);
  sr_constraints : st_constraints s = st_constraints (sp_claims p);
  sr_crit : st_crit s = st_crit (sp_claims p); sr_policy_crit : st_policy_crit s = st_policy_crit (sp_claims p);
  sr_marks : st_marks s = st_marks (sp_claims p);
  sr_issuers : st_mark_issuers s = st_mark_issuers (sp_claims p); sr_owners : st_mark_owners s = st_mark_owners (sp_claims p) }.

(** The typ header and the payload of a JWS. *)
Definition read_jwt (cx : crypto) (jwt : string) : option (string * json) :=
  match cx_parse cx jwt with
  | Some m => match ms_sigs m with
              | s :: _ => match sg_typ s with Some t => Some (t, ms_payload m) | None => None end
              | [] => None
              end
  | None => None
  end.

(** An empty text is a missing claim. *)
Definition text_claim (s : string) : option json := if String.eqb s "" then None else Some (JStr s).
