(** Cases for the theorems on trust mark specifications in JSON. *)
From Coq Require Import QArith.
From Verif Require Import Base BaseFacts GoVal Policy Schema Metadata Chain Resolver FloatTime SpecTime Json SpecJson JsonFacts TrustMark SpecTrustMark
  WitnessResolver WitnessTrustMark Refresher Config SpecConfig ConfigFacts WitnessConfig MarkSpecJson SpecMarkSpec MarkSpecFacts.
Local Open Scope nat_scope.
Local Open Scope string_scope.

Definition spec165 : mark_spec := MarkSpec "tm1" (seconds 3600) "https://ref.example" "" [("level", JNum 2%Q); ("org", JObj [("name", JStr "x")])] true "".
Lemma c165_case : ms_lifetime spec165 = seconds 3600 /\ (Z.abs 3600 <= 4611686018)%Z /\ set_apart (ms_extra spec165) /\ read_json (marshal_jspec spec165) spec165.
Proof.
  assert (A : set_apart (ms_extra spec165)).
  { split; [apply nodupb_ok; vm_compute; reflexivity|]. intros k [<- | [<- | []]]; vm_compute; intuition discriminate. }
  split; [reflexivity|]. split; [vm_compute; discriminate|]. split; [exact A|].
  apply (jspec_roundtrip spec165 3600); [reflexivity|vm_compute; discriminate|exact A].
Qed.

Definition doc165 : list (string * json) := [("trust_mark_type", JStr "tm1"); ("lifetime", JNum (86400 # 1)); ("logo_uri", JNull); ("level", JStr "high")].
Lemma c165_read_case : exists s t, well_named doc165 /\ read_json (JObj doc165) s /\ lookup "lifetime" doc165 = Some (JNum (86400 # 1)) /\
  issue_mark sign96 ISS (new_issuer [s]) (seconds 100) (ms_type s) LEAF None = Ok t.
Proof.
  eexists. eexists. split.
  { split; [intros; vm_compute; reflexivity|]. intros k [<- | [<- | [<- | [<- | []]]]]; vm_compute; tauto. }
  split; [vm_compute; reflexivity|]. split; [reflexivity|]. vm_compute. reflexivity.
Qed.

(** In JSON names count whatever the case of letters, in YAML they do not. *)
Lemma c165_letters : exists o s, (forall show, unique (to_yaml show (JObj o)) = true) /\ read_json (JObj o) s /\ ms_lifetime s = seconds 60 /\
  forall show, exists s', read_spec (to_yaml show (JObj o)) s' /\ ys_lifetime s' = 0%Z.
Proof.
  exists [("trust_mark_type", JStr "tm1"); ("Lifetime", JNum (60 # 1))]. eexists.
  split; [intros; vm_compute; reflexivity|]. split; [vm_compute; reflexivity|]. split; [vm_compute; reflexivity|].
  intros show. eexists. split; vm_compute; reflexivity.
Qed.
(** Twice the same name: JSON takes the last, YAML refuses. *)
Lemma c165_twice : exists o s, read_json (JObj o) s /\ ms_lifetime s = seconds 60 /\ forall show, unmarshal_yspec (to_yaml show (JObj o)) zero_yspec = Err.
Proof.
  exists [("trust_mark_type", JStr "tm1"); ("lifetime", JNum (30 # 1)); ("lifetime", JNum (60 # 1))]. eexists.
  split; [vm_compute; reflexivity|]. split; [vm_compute; reflexivity|]. intros; vm_compute; reflexivity.
Qed.
Lemma c165_override : exists s s', NoDup (keys (ms_extra s)) /\ read_json (marshal_jspec s) s' /\ ms_type s = "tm1" /\ ms_type s' = "tm2".
Proof.
  exists (MarkSpec "tm1" 0 "" "" [("trust_mark_type", JStr "tm2")] false ""). eexists.
  split; [apply nodupb_ok; reflexivity|]. split; [vm_compute; reflexivity|]. split; reflexivity.
Qed.
Lemma c165_fraction : exists s s', ms_extra s = [] /\ (0 < ms_lifetime s)%Z /\ read_json (marshal_jspec s) s' /\ ms_lifetime s' = 0%Z.
Proof.
  exists (MarkSpec "tm1" 500000000 "" "" [] false ""). eexists. split; [reflexivity|]. split; [reflexivity|]. split; [vm_compute; reflexivity|]. vm_compute. reflexivity.
Qed.

Lemma c165_readable_case : Forall member_fits doc165 /\ ~ member_fits ("Lifetime", JStr "1h").
Proof.
  split.
  - assert (X : exists s', unmarshal_jspec (JObj doc165) zero_spec = Ok s') by (eexists; vm_compute; reflexivity).
    apply jspec_readable in X. destruct X as [X|(o & [= <-] & F)]; [discriminate X|exact F].
  - intros (_ & Y & _). destruct (Y eq_refl) as [Z|(q & Z)]; discriminate Z.
Qed.
