(** A concrete federation for the theorems in PropertiesDiscovery.v, and counterexamples. *)
From Coq Require Import QArith Lia FinFun.
From Verif Require Import Base BaseFacts GoVal Policy Schema Metadata Chain Resolver SpecResolver SpecMetadata FloatTime Json TrustMark
  WitnessResolver WitnessTrustMark Discovery SpecDiscovery DiscoveryFacts EvalFacts DiscoveryLaws.
Local Open Scope nat_scope.
Local Open Scope string_scope.

Definition I1 := "https://i1.example".
Definition I2 := "https://i2.example".
Definition OP1 := "https://op.example".
Definition RP1 := "https://rp.example".

Definition decoded (sch : list frow) (o : smap GoVal.gval) : emeta :=
  match decode_meta sch o with Ok m => m | _ => zero_meta sch end.
Definition md_list (ep : string) : option metadata :=
  Some (Metadata None None None None None
          (Some (decoded fe_schema [("federation_list_endpoint", VStr ep); ("organization_name", VStr "Org")])) []).
Definition op_obj : smap GoVal.gval :=
  [("client_registration_types_supported", VSlice TAny false [VStr "automatic"]);
   ("scopes_supported", VSlice TAny false [VStr "openid"; VStr "email"]);
   ("organization_name", VStr "University"); ("logo_uri", VStr "https://op.example/logo");
   ("keywords", VSlice TAny false [VStr "edu"])].
Definition md_op1 : metadata := Metadata (Some (decoded op_schema op_obj)) None None None None None [].
Definition configs0 : smap stmt :=
  [(TA, mk "kt" TA TA ["kt"] [] (md_list "ta/list") None [] 1000%Z);
   (I1, mk "k1" I1 I1 ["k1"] [TA] (md_list "i1/list") None [] 1000%Z);
   (I2, mk "k2" I2 I2 ["k2"] [TA] (md_list "i2/list") None [] 1000%Z);
   (OP1, mk "ko" OP1 OP1 ["ko"] [I1] (Some md_op1) None [] 1000%Z);
   (RP1, mk "kr" RP1 RP1 ["kr"] [I2] md_rp_only None [] 1000%Z)].
Definition lists0 : smap (list string) := [("ta/list", [I1; I2]); ("i1/list", [OP1; I2]); ("i2/list", [I1; RP1; OP1])].
Definition cenv0 : cenv :=
  CEnv (env_of LocalR (tables configs0 []) [] [] [] no_remote) (fun _ ep => lookup ep lists0) (fun n h => has_prefix n h).
Definition rq_of (types : option (list string)) (name : string) (claims : option (list string)) : crequest :=
  CReq "" 0 [] TA types name claims.
Definition rq0 := rq_of (Some ["openid_provider"; "federation_entity"]) "" None.

(** The machine's world for [cenv0] and [rq0]. *)
Definition world0 : dworld :=
  DWorld (fun p a => listing_answer cenv0 p a)
         (fun p b => match entity_answer 9 cenv0 rq0 p b with Done (Ok r) => r | _ => (None, false) end).

Lemma te_config0 p a : te_config (ce_env cenv0) p a = lookup a configs0.
Proof. reflexivity. Qed.
Lemma in_configs (P : string -> option stmt -> Prop) b : P b None ->
  (forall a s, In (a, s) configs0 -> P a (Some s)) -> P b (lookup b configs0).
Proof. intros N S. destruct (lookup b configs0) as [s|] eqn:L; [apply S, lookup_In, L|exact N]. Qed.

Lemma network0 : network 9 cenv0 rq0 world0.
Proof.
  split; [reflexivity|]. intros p b. cbn [dw_entity world0].
  assert (H : exists r, entity_answer 9 cenv0 rq0 p b = Done (Ok r)); [|destruct H as [r ->]; reflexivity].
  unfold entity_answer. rewrite te_config0.
  destruct (lookup b configs0) as [s|] eqn:L; [|eauto]. apply lookup_In in L.
  destruct L as [[= <- <-]|[[= <- <-]|[[= <- <-]|[[= <- <-]|[[= <- <-]|[]]]]]]; eexists; vm_compute; reflexivity.
Qed.

(** A schedule: always the first goroutine that can make a step. *)
Fixpoint choices (f : frame) : list choice :=
  let 'Frame _ _ _ _ ts := f in
  Collect :: (fix go i ts := match ts with
                             | [] => []
                             | t :: ts' => (match t with
                                            | Wait g => map (At i) (choices g)
                                            | _ => [At i Collect]
                                            end ++ go (S i) ts')%list
                             end) 0 ts.
Fixpoint drive (w : dworld) (n : nat) (s : list string * frame) : list choice :=
  match n with
  | 0 => []
  | S n' => match find (fun c => match step w c (fst s) (snd s) with Some _ => true | None => false end) (choices (snd s)) with
            | Some c => c :: match step w c (fst s) (snd s) with Some s' => drive w n' s' | None => [] end
            | None => []
            end
  end.
Definition schedule0 := Eval vm_compute in drive world0 200 (start TA).
Definition result0 : list collected :=
  Eval vm_compute in match exec world0 schedule0 (start TA) with Some s => f_out (snd s) | None => [] end.

Lemma returns0 : returns world0 TA result0.
Proof.
  destruct (exec world0 schedule0 (start TA)) as [s|] eqn:E; [|vm_compute in E; discriminate].
  exists s. split; [now exists schedule0|].
  assert (K : match exec world0 schedule0 (start TA) with Some s => finished (snd s) = true /\ f_out (snd s) = result0 | None => False end)
    by (vm_compute; auto).
  now rewrite E in K.
Qed.

(** *** C59, C60 *)
Lemma c59_case : network 9 cenv0 rq0 world0 /\ returns world0 TA result0 /\ map ce_id result0 = [I1; OP1; I2].
Proof. split; [exact network0|]. split; [exact returns0|]. vm_compute. reflexivity. Qed.

Lemma lists0_always a b l : lookup a configs0 <> None -> (forall p, listing_answer cenv0 p a = Some l) -> In b l -> net_lists_always cenv0 a b.
Proof. intros _ H I p. exists l. auto. Qed.
Lemma c60_case :
  network 9 cenv0 rq0 world0 /\ returns world0 (cr_anchor rq0) result0 /\
  below (net_lists_always cenv0) (fun a => forall p, net_authority cenv0 p a) (cr_anchor rq0) OP1 /\
  (forall p, net_passes 9 cenv0 rq0 p OP1) /\
  ~ (exists p, net_passes 9 cenv0 rq0 p RP1).
Proof.
  split; [exact network0|]. split; [exact returns0|]. split; [|split].
  - apply below_sub with I1.
    + apply below_anchor. intros p. exists [I1; I2]. split; [vm_compute; reflexivity|now left].
    + intros p. eexists. split; [rewrite te_config0; vm_compute; reflexivity|vm_compute; discriminate].
    + intros p. exists [OP1; I2]. split; [vm_compute; reflexivity|now left].
  - intros p. eexists _, md_op1. split; [rewrite te_config0; vm_compute; reflexivity|]. split; [reflexivity|].
    split; [|split].
    + intros l [= <-]. exists "openid_provider". split; [now left|]. split; [now left|vm_compute; discriminate].
    + intros N. now destruct N.
    + intros [|i] ty; discriminate.
  - intros (p & cfg & m & C & M & T & _). rewrite te_config0 in C.
    assert (C' : lookup RP1 configs0 = Some (mk "kr" RP1 RP1 ["kr"] [I2] md_rp_only None [] 1000%Z)) by (vm_compute; reflexivity).
    rewrite C' in C. injection C as <-. cbn in M. injection M as <-.
    destruct (T _ eq_refl) as (t & [<-|[<-|[]]] & _ & H); apply H; reflexivity.
Qed.

(** *** C61 *)
Lemma c61_case : names_entities world0 /\ finite_world world0 /\ exists cs s, exec world0 cs (start TA) = Some s /\ finished (snd s) = true.
Proof.
  split; [exact (network_names _ _ _ _ network0)|]. split.
  - exists [I1; I2; OP1; RP1], 3. intros p a l. cbn [dw_listing world0]. unfold listing_answer. rewrite te_config0.
    destruct (lookup a configs0) as [s|]; [|discriminate]. destruct (String.eqb (list_endpoint s) ""); [discriminate|].
    cbn [ce_list cenv0]. intros L. apply lookup_In in L.
    destruct L as [[= _ <-]|[[= _ <-]|[[= _ <-]|[]]]]; (split; [cbn; lia|intros x I; cbn in *; tauto]).
  - destruct returns0 as (s & [cs E] & F & _). eauto.
Qed.

(** *** C76: the anchor's two intermediates are collected by two goroutines. *)
Definition schedule_race : list choice :=
  [At 0 Collect; At 0 Collect; At 0 Collect; At 0 Collect; At 0 Collect;
   At 1 Collect; At 1 Collect; Collect; At 2 Collect; At 2 Collect; Collect; At 1 Collect; At 2 Collect;
   At 1 (At 0 Collect)].
Lemma c76_witness : exists fuel ce rq w s, network fuel ce rq w /\ reached w (cr_anchor rq) s /\ races (snd s).
Proof.
  exists 9, cenv0, rq0, world0.
  destruct (exec world0 schedule_race (start TA)) as [s|] eqn:E; [|vm_compute in E; discriminate].
  exists s. split; [exact network0|]. split; [now exists schedule_race|].
  vm_compute in E. injection E as <-. unfold races. cbn [snd goroutines flat_map task_all app].
  do 2 eexists. do 3 eexists. split; [|split; [|split]].
  1: { match goal with |- ?l = _ => match l with [?a; ?b; ?x; ?d; ?y] => instantiate (5 := [a; b]); instantiate (4 := x); instantiate (3 := [d]); instantiate (2 := y); instantiate (1 := []) end end. reflexivity. }
  all: cbn; auto.
Qed.
Definition flat0 : dworld := DWorld (fun _ a => if String.eqb a TA then Some [OP1; RP1; OP1] else None)
                                    (fun _ b => (Some (Coll b [] [] [] [] None), false)).
Lemma c76_case : (forall p b, snd (dw_entity flat0 p b) = false) /\
  exists s, reached flat0 TA s /\ finished (snd s) = true /\ List.length (f_out (snd s)) = 2.
Proof.
  split; [reflexivity|].
  destruct (exec flat0 (drive flat0 100 (start TA)) (start TA)) as [s|] eqn:E; [|vm_compute in E; discriminate].
  exists s. split; [now exists (drive flat0 100 (start TA))|]. vm_compute in E. injection E as <-. vm_compute. auto.
Qed.

(** A federation without end: every entity is an authority and lists one more entity. *)
Definition endless : dworld := DWorld (fun _ a => Some [a ++ "/x"]) (fun _ b => (Some (Coll b [] [] [] [] None), true)).
Fixpoint deeper (n : nat) : string := match n with 0 => TA | S n' => deeper n' ++ "/x" end.
Lemma append_length s t : String.length (s ++ t) = String.length s + String.length t.
Proof. induction s as [|c s IH]; [reflexivity|]. cbn. now rewrite IH. Qed.
Lemma deeper_length n : String.length (deeper n) = 18 + 2 * n.
Proof. induction n as [|n IH]; [reflexivity|]. cbn [deeper]. rewrite append_length, IH. cbn. lia. Qed.
Lemma deeper_below n : below (lists_always endless) (asked_always endless) TA (deeper (S n)).
Proof.
  induction n as [|n IH].
  - apply below_anchor. intros p. eexists. split; [reflexivity|now left].
  - apply below_sub with (deeper (S n)); [exact IH|intros p; reflexivity|].
    intros p. eexists. split; [reflexivity|now left].
Qed.
Lemma endless_unfinished s : reached endless TA s -> finished (snd s) = false.
Proof.
  intros R. destruct (finished (snd s)) eqn:F; [exfalso|reflexivity].
  assert (names : names_entities endless) by (intros p b e [= <-]; reflexivity).
  set (k := List.length (f_out (snd s))).
  assert (I : incl (map (fun n => deeper (S n)) (seq 0 (S k))) (map ce_id (f_out (snd s)))).
  { intros x X. apply in_map_iff in X. destruct X as (n & <- & _).
    apply (collected_complete endless TA names s _ R F (deeper_below n)). intros p. eexists. reflexivity. }
  apply NoDup_incl_length in I.
  - rewrite !map_length, seq_length in I. fold k in I. lia.
  - apply FinFun.Injective_map_NoDup; [|apply seq_NoDup].
    intros x y E. apply (f_equal String.length) in E. rewrite !deeper_length in E. lia.
Qed.
Lemma c61_endless : exists w ta, names_entities w /\
  (forall s, reached w ta s -> finished (snd s) = false) /\
  forall k, exists cs s, exec w cs (start ta) = Some s /\ List.length cs = k.
Proof.
  exists endless, TA. split; [intros p b e [= <-]; reflexivity|]. split; [exact endless_unfinished|].
  apply unfinished_runs. exact endless_unfinished.
Qed.

(** *** C62 *)
Definition collected_op (rq : crequest) : run (option collected) := evaluate 9 cenv0 rq [] OP1 (mk "ko" OP1 OP1 ["ko"] [I1] (Some md_op1) None [] 1000%Z) md_op1.
Lemma c62_witness : exists fuel ce rq q sub cfg m e,
  evaluate fuel ce rq q sub cfg m = Done (Ok (Some e)) /\ md_op m <> None /\ is_op e = false.
Proof.
  exists 9, cenv0, (rq_of None "" (Some ["logo_uri"])), [], OP1, (mk "ko" OP1 OP1 ["ko"] [I1] (Some md_op1) None [] 1000%Z), md_op1.
  eexists. split; [vm_compute; reflexivity|]. split; [vm_compute; discriminate|reflexivity].
Qed.
Lemma c62_case : filterable (fun _ _ => true) [fun _ e => is_op e; fun i _ => Nat.ltb 0 i] result0 = firstn 1 (skipn 1 result0) /\
  wants rq0 "entity_types" = true /\ (exists e, collected_op rq0 = Done (Ok (Some e)) /\ is_op e = true).
Proof.
  split; [vm_compute; reflexivity|]. split; [reflexivity|]. eexists. split; vm_compute; reflexivity.
Qed.
Lemma c62_op_case : exists op, md_op md_op1 = Some op /\
  em_get "ScopesSupported" op = Some (VSlice TStr false (map VStr ["openid"; "email"])) /\
  supports_all "ScopesSupported" ["email"] (Some md_op1) = Ok true /\
  supports_all "ScopesSupported" ["email"; "phone"] (Some md_op1) = Ok false /\
  em_get "ClientRegistrationTypesSupported" op = Some (VSlice TStr false (map VStr ["automatic"])) /\
  registers "automatic" (Some md_op1) = true /\ registers "explicit" (Some md_op1) = false.
Proof. eexists. split; [reflexivity|]. vm_compute. repeat split; reflexivity. Qed.
Lemma c62_collectors_case :
  smart_collect (fun _ a => if String.eqb a TA then "ta/collect" else if String.eqb a I1 then "" else "x")
    (fun _ ep => if String.eqb ep "x" then Some result0 else None) [I1; TA; I2] TA = Some result0.
Proof. vm_compute. reflexivity. Qed.

(** *** C63 *)
Lemma known_op1 : known_types md_op1.
Proof.
  intros ty x. unfold typed_field, md_op1. cbn [md_op md_rp md_as md_oc md_pr md_fe].
  repeat (match goal with |- context [String.eqb ty ?k] => destruct (String.eqb ty k) end; [intros H; try discriminate H|]); try discriminate.
  injection H as <-. left. vm_compute. reflexivity.
Qed.
Lemma typed_op1 : forall ty x, typed_field md_op1 ty = Some x -> well_typed x.
Proof.
  intros ty x. unfold typed_field, md_op1. cbn [md_op md_rp md_as md_oc md_pr md_fe].
  repeat (match goal with |- context [String.eqb ty ?k] => destruct (String.eqb ty k) end; [intros H; try discriminate H|]); try discriminate.
  injection H as <-. unfold well_typed. apply Forall_forall. intros fv I. vm_compute in I.
  repeat (destruct I as [<-|I]; [cbn [fst snd fr_ty well_typed_value]; try reflexivity; 
    first [exists true, []; reflexivity | exists false, ["automatic"]; reflexivity | exists false, ["openid"; "email"]; reflexivity
          | exists false, ["edu"]; reflexivity]|]).
  destruct I.
Qed.
Lemma c63_witness : exists fuel ce rq q sub cfg m e u v,
  evaluate fuel ce rq q sub cfg m = Done (Ok (Some e)) /\ wants rq "logo_uri" = true /\
  ui_claim m "openid_provider" "logo_uri" v /\ lookup "openid_provider" (ce_ui e) = Some u /\
  ui_field u "logo_uri" = Some (GStr "") /\
  (exists op, md_op m = Some op /\ em_tag "keywords" op = Some (VSlice TStr false [VStr "edu"])) /\
  wants rq "keywords" = true /\ ui_json u "keywords" = None.
Proof.
  exists 9, cenv0, rq0, [], OP1, (mk "ko" OP1 OP1 ["ko"] [I1] (Some md_op1) None [] 1000%Z), md_op1.
  eexists. eexists. exists "https://op.example/logo". split; [vm_compute; reflexivity|]. split; [reflexivity|]. split.
  - split; [discriminate|]. cbn [String.eqb]. change (String.eqb "logo_uri" "display_name") with false. cbn iota.
    eexists. split; [split; [now left|vm_compute; discriminate]|]. split; [reflexivity|vm_compute; reflexivity].
  - split; [vm_compute; reflexivity|]. split; [vm_compute; reflexivity|]. split; [eexists; split; [reflexivity|vm_compute; reflexivity]|].
    split; [reflexivity|vm_compute; reflexivity].
Qed.
Lemma c63_case : known_types md_op1 /\ (forall ty x, typed_field md_op1 ty = Some x -> well_typed x) /\
  exists e u, collected_op rq0 = Done (Ok (Some e)) /\ lookup "openid_provider" (ce_ui e) = Some u /\
    ui_json u "display_name" = Some (JStr "University") /\ ui_json u "description" = None.
Proof.
  split; [exact known_op1|]. split; [exact typed_op1|]. eexists. eexists. split; [vm_compute; reflexivity|].
  split; [vm_compute; reflexivity|]. split; vm_compute; reflexivity.
Qed.
