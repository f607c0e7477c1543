(** Concrete JWTs. *)
From Coq Require Import QArith.
From Verif Require Import Base GoVal Policy Schema Metadata Chain Resolver SpecResolver SpecAuth FloatTime SpecTime WitnessResolver Json SpecJson
  TrustMark SpecTrustMark TrustMarkFacts TrustMarkLaws WitnessTrustMark SpecMarkAuth Jwt SpecJwt JwtFacts.
Local Open Scope nat_scope.
Local Open Scope string_scope.

Definition owner_signer : jwt_signer := Signer (Some "ko") "ES512".
Definition deleg_payload : json := mark_json OWNER ISS "tm1" "" [].
(** The delegation as the owner signed it, and the same in JSON serialization with another
    signature, made by nobody, put before it. *)
Definition deleg_sig : signature := Sig (Some "trust-mark-delegation+jwt") (Some "thumb:ko") "ES512" (Some "ko").
Definition fake_sig : signature := Sig (Some "trust-mark+jwt") (Some "thumb:ko") "ES512" None.
Definition cx0 : crypto :=
  Crypto (fun jwt => lookup jwt [("compact", Msg deleg_payload [deleg_sig]); ("wrapped", Msg deleg_payload [fake_sig; deleg_sig])])
         (fun k => "thumb:" ++ k) (fun _ _ => true).

Lemma c91_case : exists m ks, typed_jwt cx0 DelegationJWT owner_signer (Ok deleg_payload) = Ok m /\ signer_jwks cx0 owner_signer = Ok ks /\
  accepted_as cx0 DelegationJWT ks "compact" m /\ List.length (ms_sigs m) = 1 /\
  parse_typed cx0 (typ_of MarkJWT) "compact" = Err.
Proof.
  eexists _, _. split; [reflexivity|]. split; [reflexivity|]. split; [|split; reflexivity].
  split; [reflexivity|]. eexists. reflexivity.
Qed.

Lemma c91_witness : exists cx ks jwt m,
  accepted_as cx MarkJWT ks jwt m /\
  forall s, made_by ks m s -> sg_typ s = Some "trust-mark-delegation+jwt".
Proof.
  exists cx0, (key_to_jwks cx0 "ko" "ES512"), "wrapped", (Msg deleg_payload [fake_sig; deleg_sig]).
  split; [split; [reflexivity|eexists; reflexivity]|].
  intros s ([<-|[<-|[]]] & k & [<-|[]] & E); [discriminate|reflexivity].
Qed.

(** The delegation of the owner passes as a trust mark issued by the owner. *)
Definition jwk_named (cx : crypto) (k : string) : jwk := Jwk k (Some (cx_thumb cx k)) (Some "ES512") (Some "sig").
Definition env_cx (cx : crypto) : env :=
  Env LocalR (fun _ _ => net_iss) (fun _ a => w_config net_iss [] a) (fun _ _ _ => ATransport) (fun _ _ => seconds 500)
      (fun jwt => match cx_parse cx jwt with
                  | None => None
                  | Some m => Some (match ms_sigs m with
                                    | s :: _ => match sg_typ s with Some t => t | None => "" end
                                    | [] => ""
                                    end, ms_payload m)
                  end)
      (fun _ => None) no_remote
      (fun jwt l => match cx_parse cx jwt with
                    | None => false
                    | Some m => verify_sigs_any (map (jwk_named cx) l) (ms_sigs m)
                    end) (fun _ => []).
Lemma c91_mark : exists e cx key ks jwt m t,
  env_matches e cx key /\ cx_parse cx jwt = Some m /\
  (forall s, made_by (map key ks) m s -> sg_typ s = Some "trust-mark-delegation+jwt") /\
  fst (info_verify_external e [] (Info "tm1" jwt [] None) (Some ks) []) = Ok tt /\
  parse_mark e jwt = Ok t /\ mk_iss t = OWNER /\ mk_sub t = ISS /\ mk_type t = "tm1".
Proof.
  exists (env_cx cx0), cx0, (jwk_named cx0), ["ko"], "wrapped", (Msg deleg_payload [fake_sig; deleg_sig]). eexists.
  split; [split; reflexivity|]. split; [reflexivity|]. split.
  { intros s ([<-|[<-|[]]] & k & [<-|[]] & E); [discriminate|reflexivity]. }
  split; [vm_compute; reflexivity|]. split; [vm_compute; reflexivity|]. repeat split; reflexivity.
Qed.

(** *** C92 *)
Lemma c92_case : exists m own, typed_jwt cx0 DelegationJWT owner_signer (Ok deleg_payload) = Ok m /\
  cx_parse cx0 "compact" = Some m /\ signer_jwks cx0 owner_signer = Ok own /\
  incl own (own ++ key_to_jwks cx0 "kt" "ES512") /\ kids_differ (own ++ key_to_jwks cx0 "kt" "ES512") /\
  (forall x, In x (key_to_jwks cx0 "kt" "ES512") -> jk_pub x <> "ko").
Proof.
  eexists _, _. split; [reflexivity|]. split; [reflexivity|]. split; [reflexivity|].
  split; [intros x H; apply in_or_app; now left|]. split.
  - intros a b [<-|[<-|[]]] [<-|[<-|[]]]; cbn; congruence.
  - intros x [<-|[]]. discriminate.
Qed.

Lemma c92_link_case : exists e cx key alg (sign : string -> json -> option string),
  env_matches e cx (fun k => Jwk k (Some (cx_thumb cx k)) (Some alg) (Some "sig")) /\
  (forall k k', cx_thumb cx k = cx_thumb cx k' -> k = k') /\
  (forall typ j jwt, sign typ j = Some jwt -> exists m, general_jwt cx (Signer (Some key) alg) (Ok j) typ = Ok m /\ cx_parse cx jwt = Some m) /\
  sign "trust-mark-delegation+jwt" deleg_payload = Some "compact".
Proof.
  exists (env_cx cx0), cx0, "ko", "ES512",
    (fun typ j => if String.eqb typ "trust-mark-delegation+jwt" then
       match j with JObj [("iss", JStr "https://owner.example"); ("sub", JStr "https://iss.example"); ("trust_mark_type", JStr "tm1"); ("iat", JNum (100 # 1)); ("exp", JNum (1000 # 1))] => Some "compact" | _ => None end else None).
  split; [split; reflexivity|]. split; [now intros k k' [= ->]|]. split; [|reflexivity].
  intros typ j jwt. destruct (String.eqb_spec typ "trust-mark-delegation+jwt") as [->|]; [|discriminate].
  intros H.
  assert (Ej : j = deleg_payload /\ jwt = "compact").
  { repeat (match type of H with match ?x with _ => _ end = _ => destruct x; try discriminate end). injection H as <-. split; reflexivity. }
  destruct Ej as [-> ->]. eexists. split; reflexivity.
Qed.

(** *** C93 *)
Lemma c93_witness : exists cx s, js_key s = None /\ signer_jwks cx s = Panic /\ new_entity_jwks cx (Some s) = Panic.
Proof. exists cx0, (Signer None "ES512"). repeat split. Qed.

(** *** C94 *)
Definition owns_m (id k : string) : Prop := lookup id [(ISS, "kiss"); (TA, "kt"); (OWNER, "ko")] = Some k.
Definition signed_m (id jwt : string) : Prop := exists k, owns_m id k /\ has_prefix k jwt = true.
Definition dec_m (jwt : string) : option stmt := find (fun s => String.eqb (st_jwt s) jwt) [iss_cfg [TA]; ta_cfg; ta_iss].
Lemma ideal_m : ideal net_iss dec_m owns_m signed_m.
Proof.
  split.
  - intros p a s H. cbn [net_iss tables w_config] in H. unfold lookup in H.
    repeat match type of H with (if ?b then _ else _) = _ => destruct b; [injection H as <-; reflexivity|] end. discriminate.
  - intros p ep sub iss s H. cbn [net_iss tables w_fetch] in H. unfold lookup in H.
    repeat match type of H with (if ?b then _ else _) = _ => destruct b; [injection H as <-; reflexivity|] end. discriminate.
  - intros id jwt ks O V. cbn [net_iss tables w_verify] in V. apply existsb_exists in V.
    destruct V as (k & Hk & V). exists k. auto.
Qed.
Lemma marks_ideal_m : marks_ideal env0 [] ta0 dec_m owns_m signed_m.
Proof.
  split.
  - intros iss. exact ideal_m.
  - intros id jwt ks O V. cbn [env0 env_of te_verify] in V. apply existsb_exists in V. destruct V as (k & Hk & V). exists k. auto.
  - intros iss p s l k W E Hk. cbn [ta_id] in *.
    change (w_config net_iss p TA = Some s) in W. vm_compute in W. injection W as <-. injection E as <-. destruct Hk as [<-|[]]. reflexivity.
  - intros l k E Hk. injection E as <-. destruct Hk as [<-|[]]. reflexivity.
  - intros typ o l k E Hk. cbn [ta0 ta_marks st_mark_owners] in E. unfold lookup in E. destruct (String.eqb typ "tm1"); [|discriminate].
    injection E as <- <-. destruct Hk as [<-|[]]. reflexivity.
  - intros iss s r x _ _ _ jwt s' l k _ D _ K Hk. apply find_some in D. destruct D as [D _].
    destruct D as [<-|[<-|[<-|[]]]]; injection K as <-; destruct Hk as [<-|[]]; reflexivity.
Qed.
Lemma c94_case :
  te_default env0 = LocalR /\ in_sync env0 (info0 "tm1" "kiss:m") /\
  (forall iss, decodes env0 (te_world env0 [] (issuer_request iss ta0))) /\
  names_issuer env0 [] (info0 "tm1" "kiss:m") ta0 /\ has_superiors env0 [] (info0 "tm1" "kiss:m") ta0 /\
  marks_ideal env0 [] ta0 dec_m owns_m signed_m /\
  verify_mark 9 env0 [] (info0 "tm1" "kiss:m") ta0 = Done (Ok tt) /\ ~ signed_m TA "kiss:m".
Proof.
  split; [reflexivity|]. split; [discriminate|]. split; [intros; apply decodes0|].
  assert (Q : forall m s, is_mark env0 "kiss:m" m -> w_config net_iss [] (mk_iss m) = Some s ->
            st_hints s <> [] /\ st_iss s = mk_iss m /\ st_sub s = mk_iss m).
  { intros m s M. assert (P : parse_mark env0 "kiss:m" = Ok m) by (apply parse_mark_spec; exact M).
    vm_compute in P. injection P as <-. vm_compute. intros [= <-]. split; [discriminate|split; reflexivity]. }
  split; [intros m s M W; now destruct (Q m s M W) as (? & ? & ?)|].
  split; [intros m s M W; now destruct (Q m s M W) as (? & ? & ?)|].
  split; [apply marks_ideal_m|]. split; [vm_compute; reflexivity|].
  intros (k & O & P). vm_compute in O. injection O as <-. discriminate P.
Qed.

(** The network serves a configuration for the issuer with a foreign key and no hints. *)
Definition fake_cfg : stmt := mk "kx" ISS ISS ["kx"] [] md_rp_only None [] 1000%Z.
Definition net_fake : world := tables [(ISS, fake_cfg); (TA, ta_cfg)] [].
Definition env_fake := env_of LocalR net_fake [("kx:m", mark_jwt ISS LEAF "tm1" "")] [fake_cfg; ta_cfg] [] no_remote.
Definition ta_fake := ta_marks [("tm1", [ISS])] [].
Definition dec_f (jwt : string) : option stmt := find (fun s => String.eqb (st_jwt s) jwt) [fake_cfg; ta_cfg].
Lemma c94_witness : exists fuel e p t ta dec owns signed m,
  te_default e = LocalR /\ in_sync e t /\ (forall iss, decodes e (te_world e p (issuer_request iss ta))) /\
  names_issuer e p t ta /\ marks_ideal e p ta dec owns signed /\
  verify_mark fuel e p t ta = Done (Ok tt) /\ is_mark e (ti_jwt t) m /\
  forall id, ~ signed id (ti_jwt t).
Proof.
  exists 9, env_fake, [], (info0 "tm1" "kx:m"), ta_fake, dec_f, owns_m, signed_m.
  assert (PM : exists m, parse_mark env_fake "kx:m" = Ok m) by (eexists; vm_compute; reflexivity).
  destruct PM as (m & PM). exists m.
  split; [reflexivity|]. split; [discriminate|]. split.
  { intros iss. apply decodes_tables. intros a s [[= <- <-]|[[= <- <-]|[]]]; vm_compute; reflexivity. }
  split.
  { intros m' s M. assert (P : parse_mark env_fake "kx:m" = Ok m') by (apply parse_mark_spec; exact M).
    vm_compute in P. injection P as <-. vm_compute. intros [= <-]. split; reflexivity. }
  split.
  { split.
    - intros iss. split.
      + intros p a s H. change (lookup a [(ISS, fake_cfg); (TA, ta_cfg)] = Some s) in H. unfold lookup in H.
        repeat match type of H with (if ?b then _ else _) = _ => destruct b; [injection H as <-; reflexivity|] end. discriminate.
      + intros p ep sub iss' s H. discriminate H.
      + intros id jwt ks O V. change (existsb (fun k => has_prefix k jwt) ks = true) in V. apply existsb_exists in V.
        destruct V as (k & Hk & V). exists k. auto.
    - intros id jwt ks O V. change (existsb (fun k => has_prefix k jwt) ks = true) in V. apply existsb_exists in V.
      destruct V as (k & Hk & V). exists k. auto.
    - intros iss p s l k W E Hk. cbn [ta_id] in *. change (w_config net_fake p TA = Some s) in W. vm_compute in W. injection W as <-.
      injection E as <-. destruct Hk as [<-|[]]. reflexivity.
    - intros l k E Hk. injection E as <-. destruct Hk as [<-|[]]. reflexivity.
    - intros typ o l k E Hk. discriminate E.
    - intros iss s r x _ _ _ jwt s' l k (k' & O & P) D E K Hk. apply find_some in D. destruct D as [D J].
      apply String.eqb_eq in J. subst jwt. destruct D as [<-|[<-|[]]].
      + rewrite <- E in O. vm_compute in O. injection O as <-. discriminate P.
      + injection K as <-. destruct Hk as [<-|[]]. reflexivity. }
  split; [vm_compute; reflexivity|]. split; [apply parse_mark_spec; exact PM|].
  intros id (k & O & P). unfold owns_m, lookup in O. cbn [ti_jwt info0] in P.
  repeat match type of O with (if ?b then _ else _) = _ => destruct b; [injection O as <-; discriminate P|] end. discriminate.
Qed.
