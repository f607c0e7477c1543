(** Specification vocabulary: what the members of a JSON object say. *)
From Coq Require Import QArith.
From Verif Require Import Base GoVal Policy Schema Metadata Chain FloatTime SpecTime Json SpecJson TrustMark Leaf.
Local Open Scope nat_scope.
Local Open Scope string_scope.

(** The JSON values structs are decoded from: objects, and null for an empty one. *)
Definition is_object (j : json) : Prop := j = JNull \/ exists o, j = JObj o.

(** The values of the members with the given name; encoding/json does not distinguish upper
    and lower case here. *)
Definition members (name : string) (j : json) : list json :=
  match j with
  | JObj o => map snd (filter (fun kv => String.eqb (fold_name (fst kv)) (fold_name name)) o)
  | _ => []
  end.

(** The last of the texts among some values, "" if there is none. *)
Definition texts (l : list json) : list string := flat_map (fun j => match j with JStr s => [s] | _ => [] end) l.
Definition says_text (j : json) (name s : string) : Prop :=
  Forall (fun x => x = JNull \/ exists t, x = JStr t) (members name j) /\ s = last (texts (members name j)) "".

(** The last of the integers, 0 if there is none. *)
Definition int64 (x : json) : Prop := exists q z, x = JNum q /\ (q == inject_Z z)%Q /\ (- 2 ^ 63 <= z < 2 ^ 63)%Z.
Definition numbers (l : list json) : list json := filter (fun j => match j with JNum _ => true | _ => false end) l.
Definition says_int (j : json) (name : string) (x : json) : Prop :=
  Forall (fun x => x = JNull \/ int64 x) (members name j) /\ x = last (numbers (members name j)) (JNum 0).

(** The last of the time stamps; null counts as the number 0 for a mandatory one and as
    absent for an optional one. *)
Definition instant (j : json) : time := match j with JNum q => decode_time q | _ => decode_time 0 end.
Definition opt_instant (j : json) : option time := match j with JNum q => Some (decode_time q) | _ => None end.
Definition null_or_number (x : json) : Prop := x = JNull \/ exists q, x = JNum q.
Definition says_time (j : json) (name : string) (t : time) : Prop :=
  Forall null_or_number (members name j) /\ t = last (map instant (members name j)) zero_time.
Definition says_opt_time (j : json) (name : string) (t : option time) : Prop :=
  Forall null_or_number (members name j) /\ t = last (map opt_instant (members name j)) None.

(** The members that are not among the named ones; of repeated ones the last counts. *)
Definition says_others (j : json) (names : list string) (extra : smap json) : Prop :=
  NoDup (keys extra) /\ forall k, lookup k extra = if mem k names then None else claim k j.

(** A trust mark (OpenID Federation 1.0, 7.1). *)
Record mark_says (j : json) (m : mark) : Prop := MarkSays {
  ms_object : is_object j;
  ms_says_iss : says_text j "iss" (mk_iss m); ms_says_sub : says_text j "sub" (mk_sub m);
  ms_says_type : says_text j "trust_mark_type" (mk_type m);
  ms_says_iat : says_time j "iat" (mk_iat m); ms_says_exp : says_opt_time j "exp" (mk_exp m);
  ms_says_logo : says_text j "logo_uri" (mk_logo m); ms_says_ref : says_text j "ref" (mk_ref m);
  ms_says_deleg : says_text j "delegation" (mk_deleg m);
  ms_says_rest : says_others j ["iss"; "sub"; "trust_mark_type"; "iat"; "exp"; "logo_uri"; "ref"; "delegation"] (mk_extra m) }.

(** A delegation (7.2.1). *)
Record delegation_says (j : json) (d : delegation) : Prop := DelegationSays {
  ds_object : is_object j;
  ds_says_iss : says_text j "iss" (dg_iss d); ds_says_sub : says_text j "sub" (dg_sub d);
  ds_says_type : says_text j "trust_mark_type" (dg_type d);
  ds_says_iat : says_time j "iat" (dg_iat d); ds_says_exp : says_opt_time j "exp" (dg_exp d);
  ds_says_ref : says_text j "ref" (dg_ref d);
  ds_says_rest : says_others j ["iss"; "sub"; "trust_mark_type"; "iat"; "exp"; "ref"] (dg_extra d) }.

(** A member of a trust_marks claim. *)
Record info_says (j : json) (t : info) : Prop := InfoSays {
  is_object_ : is_object j;
  is_says_type : says_text j "trust_mark_type" (ti_type t); is_says_mark : says_text j "trust_mark" (ti_jwt t);
  is_says_rest : says_others j ["trust_mark_type"; "trust_mark"] (ti_extra t) }.

(** The reply of a token endpoint: an error response (RFC 6749, 5.2) or a token response
    (5.1, OpenID Connect Core 3.1.3.3). *)
Record refusal (j : json) (error description : string) : Prop := Refusal {
  rf_object : is_object j; rf_some : error <> "";
  rf_error : says_text j "error" error; rf_description : says_text j "error_description" description }.
Record token_reply (j : json) (access typ : string) (expires : json) (refresh scope id : string) : Prop := TokenReply {
  tk_object : is_object j;
  tk_no_error : says_text j "error" ""; tk_no_description : exists d, says_text j "error_description" d;
  tk_access : says_text j "access_token" access; tk_type : says_text j "token_type" typ;
  tk_expires : says_int j "expires_in" expires; tk_refresh : says_text j "refresh_token" refresh;
  tk_scope : says_text j "scope" scope; tk_id : says_text j "id_token" id }.

(** ** What issued documents contain *)

(** A claim that is left out when the text is empty. *)
Definition text_claim (s : string) : option json := if String.eqb s "" then None else Some (JStr s).

(** The claims of a trust mark issued by [iss] for [sub]; [exp] is absent for marks that do
    not expire. Additional claims replace those of the same name. *)
Definition mark_claims (iss sub typ : string) (iat : time) (exp : option time) (logo ref deleg : string) (extra : smap json)
           (k : string) : option json :=
  match lookup k extra with
  | Some j => Some j
  | None =>
      if String.eqb k "iss" then Some (JStr iss)
      else if String.eqb k "sub" then Some (JStr sub)
      else if String.eqb k "trust_mark_type" then Some (JStr typ)
      else if String.eqb k "iat" then Some (JNum (encode_time iat))
      else if String.eqb k "exp" then option_map (fun t => JNum (encode_time t)) exp
      else if String.eqb k "logo_uri" then text_claim logo
      else if String.eqb k "ref" then text_claim ref
      else if String.eqb k "delegation" then text_claim deleg
      else None
  end.
Definition delegation_claims (iss sub typ : string) (iat : time) (exp : option time) (ref : string) (extra : smap json)
           (k : string) : option json :=
  match lookup k extra with
  | Some j => Some j
  | None =>
      if String.eqb k "iss" then Some (JStr iss)
      else if String.eqb k "sub" then Some (JStr sub)
      else if String.eqb k "trust_mark_type" then Some (JStr typ)
      else if String.eqb k "iat" then Some (JNum (encode_time iat))
      else if String.eqb k "exp" then option_map (fun t => JNum (encode_time t)) exp
      else if String.eqb k "ref" then text_claim ref
      else None
  end.
