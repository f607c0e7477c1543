(** Concrete configurations: counterexamples for statements that are false of the code, and
    cases that meet the hypotheses of the theorems in PropertiesConfig.v. *)
From Coq Require Import QArith.
From Verif Require Import Base BaseFacts GoVal Policy Schema Metadata Chain Resolver FloatTime SpecTime
  Json SpecJson JsonFacts TrustMark SpecTrustMark TrustMarkFacts WitnessResolver WitnessTrustMark.
From Verif Require Import Refresher Config SpecConfig ConfigFacts.
Local Open Scope nat_scope.
Local Open Scope string_scope.

Definition show0 (q : Q) : string := "number".

(** *** C95 *)
Definition spec95 : yspec := YSpec "tm1" (seconds 3600) "https://ref.example" "" true "" [("level", YNum 2%Q "2"); ("org", YMap [("name", YStr "x")])].
Lemma c95_case : ys_lifetime spec95 = seconds 3600 /\ (Z.abs 3600 <= 4611686018)%Z /\ additional (ys_extra spec95) /\
  exists doc, read_spec doc spec95.
Proof.
  assert (A : additional (ys_extra spec95)).
  { split; [apply nodupb_ok; vm_compute; reflexivity|]. split; [repeat constructor|].
    intros k [<- | [<- | []]]; vm_compute; intuition discriminate. }
  split; [reflexivity|]. split; [vm_compute; discriminate|]. split; [exact A|].
  exists (marshal_yspec show0 spec95). apply yspec_roundtrip with 3600%Z; [reflexivity|vm_compute; discriminate|exact A].
Qed.
Lemma c95_override : exists s s', NoDup (keys (ys_extra s)) /\ read_spec (marshal_yspec show0 s) s' /\ ys_type s = "tm1" /\ ys_type s' = "tm2".
Proof.
  exists (YSpec "tm1" 0 "" "" false "" [("trust_mark_type", YStr "tm2")]).
  eexists. split; [apply nodupb_ok; reflexivity|]. split; [vm_compute; reflexivity|]. split; reflexivity.
Qed.
Lemma c95_fraction : exists s s', ys_extra s = [] /\ (0 < ys_lifetime s)%Z /\ read_spec (marshal_yspec show0 s) s' /\ ys_lifetime s' = 0%Z.
Proof.
  exists (YSpec "tm1" 500000000 "" "" false "" []). eexists. split; [reflexivity|]. split; [reflexivity|].
  split; [vm_compute; reflexivity|reflexivity].
Qed.

(** *** C96 *)
Definition doc96 (q : Q) : yaml := YMap [("trust_mark_type", YStr "tm1"); ("lifetime", YNum q "l"); ("level", YStr "high")].
Definition sign96 (typ : string) (j : json) : option string := Some "signed".
Lemma c96_case : exists s t, read_spec (doc96 (86400 # 1)) s /\ member "lifetime" (doc96 (86400 # 1)) = Some (YNum (86400 # 1) "l") /\
  ((86400 # 1) == inject_Z 86400)%Q /\ issue_mark sign96 ISS (new_issuer [spec_of s]) (seconds 100) (ys_type s) LEAF None = Ok t.
Proof. eexists. eexists. split; [vm_compute; reflexivity|]. split; [reflexivity|]. split; [reflexivity|]. vm_compute. reflexivity. Qed.
Lemma c96_half : exists doc s sign ent now sub t m, read_spec doc s /\ member "lifetime" doc = Some (YNum (1 # 2) "0.5") /\
  issue_mark sign ent (new_issuer [spec_of s]) now (ys_type s) sub None = Ok t /\ ti_mark t = Some m /\ mk_exp m = None.
Proof.
  exists (YMap [("trust_mark_type", YStr "tm1"); ("lifetime", YNum (1 # 2) "0.5")]).
  eexists. exists sign96, ISS, (seconds 100), LEAF. eexists. eexists.
  split; [vm_compute; reflexivity|]. split; [reflexivity|]. split; [vm_compute; reflexivity|]. split; reflexivity.
Qed.

(** *** C97 *)
(** Sets of key names. *)
Definition names_dec (j : json) : option (list string) :=
  match j with
  | JObj [("keys", JArr l)] => (fix go l := match l with
                                            | [] => Some []
                                            | JStr s :: r => match go r with Some x => Some (s :: x) | None => None end
                                            | _ => None
                                            end) l
  | _ => None
  end.
Definition kc0 : keycodec (list string) := KeyCodec _ (fun l => JObj [("keys", JArr (map JStr l))]) names_dec (@List.length string).
Lemma kc0_keeps l : keeps kc0 l.
Proof.
  split.
  - cbn. induction l as [|x l IH]; cbn; [reflexivity|]. cbn in IH. rewrite IH. reflexivity.
  - exists [("keys", JArr (map JStr l))]. split; [reflexivity|]. intros show. cbn. rewrite Bool.andb_true_r.
    induction l as [|x l IH]; cbn; [reflexivity|exact IH].
Qed.
Lemma c97_case : keeps kc0 ["k1"; "k2"] /\ kc_len kc0 ["k1"; "k2"] <> 0.
Proof. split; [apply kc0_keeps|discriminate]. Qed.
Lemma c97_empty : exists (K : Type) (kc : keycodec K) k, keeps kc k /\ len_of kc (Some k) = Ok 0 /\
  exists s, dec_keys kc (enc_keys kc (Some k)) = Ok s /\ len_of kc s = Panic.
Proof. exists (list string), kc0, []. split; [apply kc0_keeps|]. split; [reflexivity|]. exists None. split; reflexivity. Qed.

(** *** C98 *)
Definition spec0 : mark_spec := MarkSpec "" 0 "" "" [] false "".
Definition cfg98 (self refresh : bool) (jwt : string) : mconfig :=
  MConfig "tm1" ISS self spec0 jwt refresh 0 0 zero_time zero_time "" "" None.
Definition parse98 (j : string) : option (option time * string * option string) := Some (Some (seconds 200), ISS, Some "tm1").
Definition refuse (ep typ sub : string) : reply := RFail.
Lemma c98_case : exists c1, verify_mconfig parse98 LEAF "" (Some sign96) (cfg98 true true "") = Ok c1 /\ mc_own c1 <> None /\
  fst (mark_jwt env0 refuse (seconds 100) c1) = Ok "signed".
Proof. eexists. split; [vm_compute; reflexivity|]. split; [discriminate|]. vm_compute. reflexivity. Qed.
Lemma c98_witness : exists parse sub ep sign c c1 e ask now, unused c /\ sign <> None /\
  verify_mconfig parse sub ep sign c = Ok c1 /\ fst (mark_jwt e ask now c1) = Panic.
Proof.
  exists parse98, LEAF, "", (Some sign96), (cfg98 true true "old"). eexists. exists env0, refuse, (seconds 500).
  split; [reflexivity|]. split; [discriminate|]. split; [vm_compute; reflexivity|]. vm_compute. reflexivity.
Qed.
Lemma c98_no_signer : exists parse sub ep c c1 e ask now, unused c /\ mc_jwt c = "" /\
  verify_mconfig parse sub ep None c = Ok c1 /\ fst (mark_jwt e ask now c1) = Panic.
Proof.
  exists parse98, LEAF, "", (cfg98 true true ""). eexists. exists env0, refuse, (seconds 500).
  split; [reflexivity|]. split; [reflexivity|]. split; [vm_compute; reflexivity|]. vm_compute. reflexivity.
Qed.

(** *** C99 *)
(** The endpoint of the entity's own issuer answers with a mark of another type, about
    somebody else, signed by nobody and expired. *)
Definition cfg99 : mconfig := MConfig "tm9" LEAF false spec0 "" false 0 0 zero_time zero_time "" "" None.
Definition serve (body ep typ sub : string) : reply := RBody body.
Lemma c99_case : exists c1 j x, verify_mconfig parse98 LEAF "https://leaf.example/tm" None cfg99 = Ok c1 /\
  obtain env0 (serve "kiss:m") (seconds 100) c1 = Ok (j, x) /\ mc_self c1 = false.
Proof. eexists. eexists. eexists. split; [vm_compute; reflexivity|]. split; [vm_compute; reflexivity|reflexivity]. Qed.
Definition own_mark : json := marshal mark_fields (mark_values (Mark ISS ISS "tm1" (seconds S0) "" None "" "" [] None)) [].
Definition cfg1 (sign : string -> json -> option string) : mconfig :=
  MConfig "tm1" ISS true (set_type "tm1" spec0) "" true (10 * second) (3600 * second) zero_time zero_time ISS ""
          (Some (OwnIssuer ISS (Some sign) (new_issuer [set_type "tm1" spec0]))).
Lemma cfg1_ok sign : verify_mconfig parse98 ISS "" (Some sign) (cfg98 true true "") = Ok (cfg1 sign).
Proof. reflexivity. Qed.
Lemma c99_self_case : let e := env_at (seconds S0) typ_mark own_mark in let sign := sign_only typ_mark own_mark in
  signer e sign "ki" /\ no_clash mark_fields (ms_extra (mc_spec (cfg98 true true ""))) /\
  exists c1, verify_mconfig parse98 ISS "" (Some sign) (cfg98 true true "") = Ok c1 /\
    obtain e refuse (seconds S0) c1 = Ok ("ki:signed", zero_time).
Proof.
  cbv zeta. split; [apply signer_only|]. split; [split; [constructor|intros k []]|].
  exists (cfg1 (sign_only typ_mark own_mark)). split; [apply cfg1_ok|]. vm_compute. reflexivity.
Qed.
Lemma c99_witness : exists parse sub ep sign c c1 e ask now j m, unused c /\ mc_jwt c = "" /\
  verify_mconfig parse sub ep sign c = Ok c1 /\ fst (mark_jwt e ask now c1) = Ok j /\ is_mark e j m /\
  mk_type m <> mc_type c /\ mk_sub m <> sub /\ mk_iss m <> mc_issuer c /\ (forall ks, te_verify e j ks = false) /\
  exists t, mk_exp m = Some t /\ (t < now)%Z.
Proof.
  pose (e := Env LocalR (te_world env0) (te_config env0) (te_remote env0) (te_now env0) (te_parse env0) (te_stmt env0)
                 (te_payload env0) (fun _ _ => false) (te_swaps env0)).
  exists parse98, LEAF, "https://leaf.example/tm", None, cfg99. eexists. exists e, (serve "kiss:other"), (seconds 5000), "kiss:other".
  eexists. split; [reflexivity|]. split; [reflexivity|]. split; [vm_compute; reflexivity|]. split; [vm_compute; reflexivity|].
  split; [apply parse_mark_spec; vm_compute; reflexivity|].
  split; [vm_compute; discriminate|]. split; [vm_compute; discriminate|]. split; [vm_compute; discriminate|]. split; [reflexivity|].
  eexists. split; [vm_compute; reflexivity|]. reflexivity.
Qed.
