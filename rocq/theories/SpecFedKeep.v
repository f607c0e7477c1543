(** Specification vocabulary: entities of a federation that keep their trust marks up to date with
    this library. *)
From Coq Require Import QArith.
From Verif Require Import Base GoVal Policy Schema Metadata SpecMetadata Chain Resolver SpecResolver Json SpecJson TrustMark SpecTrustMark Refresher Leaf Config Jwt Statement
  Encode SpecEncode Federation SpecFederation SpecFedMark.
From Verif Require Import SpecEncode GoVal.
Local Open Scope nat_scope.
Local Open Scope string_scope.

(** [y] issued the mark [jwt] of type [typ] about [sub], with the delegation [dj], at [at_] for
    [life] nanoseconds (0: for ever). *)
Definition made (n : network) (y : participant) (typ sub dj : string) (at_ : time) (life : Z) (jwt : string) : Prop :=
  exists sign specs spec lf t, signs n (pa_signer y) sign /\ issuer_specs specs /\ lookup typ specs = Some spec /\
    no_clash mark_fields (ms_extra spec) /\ ms_deleg spec = dj /\ issue_mark sign (pa_id y) specs at_ typ sub lf = Ok t /\ ti_jwt t = jwt /\
    life = match lf with Some l => l | None => ms_lifetime spec end.
(** It lives at least [least]. *)
Definition lasting (least : Z) (at_ : time) (life : Z) : Prop :=
  SpecTrustMark.in_range at_ /\ (life <> 0%Z -> (least <= life)%Z /\ SpecTrustMark.in_range (at_ + life)%Z).

(** A call of TrustMarkJWT: the answers it gets, and when. *)
Record call := Call { ca_env : env; ca_ask : string -> string -> string -> reply; ca_now : time }.

(** Where [x], whose own trust mark endpoint is [own], asks [y] for marks. *)
Definition mark_address (x y : participant) (own ep : string) : Prop :=
  (pa_id y = pa_id x /\ ep = own) \/
  (pa_id y <> pa_id x /\ ep <> "" /\ exists fe, md_fe (pa_metadata y) = Some fe /\ em_tag "federation_trust_mark_endpoint" fe = Some (VStr ep)).

(** During the call, configurations of [y] are its own, and its endpoint answers requests for marks
    about [x] only with marks it issues. *)
Record attended (n : network) (x y : participant) (dj own : string) (least : Z) (k : call) : Prop := Attended {
  at_parse : forall jwt, te_parse (ca_env k) jwt = read_jwt (nw_crypto n) jwt;
  at_config : forall s, te_config (ca_env k) [] (pa_id y) = Some s -> configures y s;
  at_mark : forall ep typ jwt, mark_address x y own ep -> ca_ask k ep typ (pa_id x) = RBody jwt ->
            exists life, made n y typ (pa_id x) dj (ca_now k) life jwt /\ lasting least (ca_now k) life }.

(** What the user configures: marks of [y] are asked for, or [x] is the issuer itself. *)
Definition asks_for (y : participant) (c : mconfig) : Prop := mc_self c = false /\ mc_issuer c = pa_id y.
Definition makes_own (n : network) (x y : participant) (dj : string) (sign : option (string -> json -> option string)) (c : mconfig) : Prop :=
  mc_self c = true /\ y = x /\ ms_deleg (mc_spec c) = dj /\ no_clash mark_fields (ms_extra (mc_spec c)) /\ exists sg, sign = Some sg /\ signs n (pa_signer x) sg.

(** The refresh that a call starts in the background: trustmark_refresher.go:91-93,98-153. It is
    one step here. *)
Definition background (e : env) (ask : string -> string -> string -> reply) (now : time) (c : mconfig) : mconfig :=
  if Z.ltb (since (mc_tried c) now) minute then c
  else match obtain e ask now c with
       | Ok (j, z) => set_mark c j z now
       | _ => set_mark c (mc_jwt c) (mc_exp c) now
       end.

(** The calls and refreshes so far, the last one not after [t]; the object of the user is now the
    second one. *)
Inductive kept (good : call -> Prop) (c : mconfig) : time -> mconfig -> Prop :=
| kept_new t : kept good c t c
| kept_call t c' k : kept good c t c' -> good k -> (t <= ca_now k)%Z -> kept good c (ca_now k) (snd (mark_jwt (ca_env k) (ca_ask k) (ca_now k) c'))
| kept_background t c' k : kept good c t c' -> good k -> (t <= ca_now k)%Z -> kept good c (ca_now k) (background (ca_env k) (ca_ask k) (ca_now k) c').
Definition good_call (n : network) (x y : participant) (dj own : string) (least : Z) (c : mconfig) (k : call) : Prop :=
  SpecTrustMark.in_range (ca_now k) /\
  if mc_self c then lasting least (ca_now k) (ms_lifetime (mc_spec c)) else attended n x y dj own least k.
