(** Specification vocabulary for metadata per entity type. *)
From Verif Require Import Base GoVal Policy Schema Metadata.
Local Open Scope string_scope.

(** What a metadata object says about one entity type: the metadata of a type the library
    has a struct for, or the decoded JSON of any other type. *)
Inductive shown := Known (m : emeta) | Additional (j : gval).

(** The metadata [m] shows for the entity type [t]; None: the type is absent. *)
Definition shown_at (m : metadata) (t : string) : option shown :=
  match find (fun e => String.eqb t (fst e))
             [("openid_provider", md_op m); ("openid_relying_party", md_rp m);
              ("oauth_authorization_server", md_as m); ("oauth_client", md_oc m);
              ("oauth_resource", md_pr m); ("federation_entity", md_fe m)] with
  | Some (_, Some em) => Some (Known em)
  | _ => option_map Additional (lookup t (md_extra m))
  end.

(** [m'] is [m] restricted to the entity types [types]. *)
Definition restricted (types : list string) (m m' : metadata) : Prop :=
  forall t, (In t types -> shown_at m' t = shown_at m t) /\ (~ In t types -> shown_at m' t = None).
