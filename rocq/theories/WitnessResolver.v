(** Concrete federations: counterexamples for statements that are false of the resolver,
    and cases that meet the hypotheses of the theorems in PropertiesResolver.v. *)
From Verif Require Import Base GoVal Policy Schema Metadata Chain Resolver SpecResolver SpecChain.
Local Open Scope string_scope.

(** A network given by tables; a JWT verifies under a key set if it starts with one of the
    keys; the host of an identifier is what follows "https://". The time is 500. *)
Definition fetch_key (ep sub : string) : string := ep ++ "?sub=" ++ sub.
Definition host_of (id : string) : option string :=
  if has_prefix "https://" id then Some (String.substring 8 (String.length id - 8) id) else None.
Definition tables (configs fetches : smap stmt) : world :=
  World (fun _ a => lookup a configs) (fun _ ep sub _ => lookup (fetch_key ep sub) fetches) (fun _ _ => 500%Z)
        (fun jwt keys => existsb (fun k => has_prefix k jwt) keys) host_of.

Definition mk (key iss sub : string) (keys hints : list string) (m : option metadata) (co : option constraints)
           (crit : list string) (exp : time) : stmt :=
  Stmt (key ++ ":" ++ iss ++ ">" ++ sub) iss sub 100%Z exp (Some keys) hints m None co crit [] [] [] [].

Definition fe_meta (ep : string) : emeta :=
  match decode_meta fe_schema [("federation_fetch_endpoint", VStr ep)] with Ok m => m | _ => zero_meta fe_schema end.
Definition md_fetch (ep : string) : option metadata := Some (Metadata None None None None None (Some (fe_meta ep)) []).
Definition md_rp_only : option metadata := Some (Metadata None (Some (zero_meta rp_schema)) None None None None []).

Definition LEAF := "https://leaf.example".
Definition IM := "https://im.example".
Definition TA := "https://ta.example".
Definition tas0 : list anchor := [Anchor TA (Some ["kt"])].

Definition leaf0 : stmt := mk "kl" LEAF LEAF ["kl"] ["https://down.example"; IM] md_rp_only None [] 1000%Z.
Definition im_cfg : stmt := mk "ki" IM IM ["ki"] [TA] (md_fetch "https://im.example/fetch") None [] 1000%Z.
Definition ta_cfg : stmt := mk "kt" TA TA ["kt"] [] (md_fetch "https://ta.example/fetch") None [] 1000%Z.
Definition im_sub (about : string) (co : option constraints) (crit : list string) : stmt :=
  mk "ki" IM about ["kl"] [] None co crit 1000%Z.
Definition ta_sub (co : option constraints) : stmt := mk "kt" TA IM ["ki"] [] None co [] 1000%Z.

(** Leaf, intermediate and trust anchor; the leaf is served at [start]. *)
Definition net (start : string) (leaf : stmt) (imco taco : option constraints) (crit : list string) : world :=
  tables [(start, leaf); (IM, im_cfg); (TA, ta_cfg)]
         [(fetch_key "https://im.example/fetch" (st_iss leaf), im_sub (st_iss leaf) imco crit);
          (fetch_key "https://ta.example/fetch" IM, ta_sub taco)].

Definition net0 := net LEAF leaf0 None None [].
Definition chain0 (leaf : stmt) imco taco crit : chain :=
  [leaf; im_sub (st_iss leaf) imco crit; ta_sub taco; ta_cfg].

Ltac ret := exists 5; eexists; split; [right; vm_compute; reflexivity|vm_compute; auto].

Lemma net0_returned : returned net0 tas0 [] LEAF (chain0 leaf0 None None []).
Proof. ret. Qed.

(** *** C19 *)
Definition orphan : stmt := mk "nobody" LEAF LEAF ["kl"] [] md_rp_only None [] 1000%Z.
Definition net_orphan := tables [(LEAF, orphan)] [].

Lemma c19_witness : exists w tas types start c,
  returned w tas types start c /\ ~ ends_at_anchor tas c /\
  (forall s ks ta, In s c -> In ta tas -> ks = ta_jwks ta \/ ks = st_jwks s -> ~ signed_by w s ks).
Proof.
  exists net_orphan, tas0, [], LEAF, [orphan]. split; [ret|]. split.
  - intros (pre & t & E & _ & ta & [<-|[]] & Et). destruct pre as [|? [|]]; try discriminate.
    injection E as <-. discriminate.
  - intros s ks ta [<-|[]] [<-|[]] [-> | ->] (k & l & [= <- <-] & V); vm_compute in V; discriminate.
Qed.

Lemma c19_case : returned net0 tas0 [] LEAF (chain0 leaf0 None None []) /\ List.length (chain0 leaf0 None None []) <> 1.
Proof. split; [apply net0_returned|discriminate]. Qed.

(** The statement below the anchor need not verify under the keys in the anchor's own
    configuration when keys are configured for the anchor. *)

(** *** C20 *)
Lemma c20_witness : exists w tas types start c, returned w tas types start c /\ ~ ends_at_anchor tas c.
Proof. destruct c19_witness as (w & tas & types & start & c & H & N & _). exists w, tas, types, start, c. auto. Qed.

(** *** C21 *)
Definition leaf_expired : stmt := mk "kl" LEAF LEAF ["kl"] [IM] md_rp_only None [] 200%Z.
Lemma c21_witness : exists w tas types start c s,
  (forall p b, w_now w p b = 500%Z) /\ returned w tas types start c /\ 3 <= List.length c /\ In s c /\ ~ valid_at 500%Z s.
Proof.
  exists (net LEAF leaf_expired None None []), tas0, [], LEAF, (chain0 leaf_expired None None []), leaf_expired.
  split; [reflexivity|]. split; [ret|]. split; [simpl; lia|]. split; [simpl; auto|].
  intros [_ [E|E]]; cbv in E; congruence.
Qed.

Lemma c21_case : exists s r, chain0 leaf0 None None [] = s :: r /\ List.length r = 3 /\
  returned net0 tas0 [] LEAF (s :: r) /\ forall x, In x r -> valid_at 500%Z x.
Proof.
  eexists _, _. split; [reflexivity|]. split; [reflexivity|]. split; [apply net0_returned|].
  intros x [<-|[<-|[<-|[]]]]; split; right; vm_compute; discriminate.
Qed.

(** *** C22 *)
Lemma c22_witness : exists w tas types start c s r,
  returned w tas types start c /\ 3 <= List.length c /\ c = s :: r /\ st_iss s <> start /\ st_sub s <> start.
Proof.
  exists (net "https://evil.example" leaf0 None None []), tas0, [], "https://evil.example", (chain0 leaf0 None None []), leaf0.
  eexists. split; [ret|]. split; [simpl; lia|]. split; [reflexivity|]. split; discriminate.
Qed.

(** *** C23 *)
Definition looping : stmt := mk "ki" IM "https://x.example" ["ki"] [IM] md_rp_only None [] 1000%Z.
Definition net_loop : world :=
  tables [("https://x.example", looping); (IM, im_cfg); (TA, ta_cfg)]
         [(fetch_key "https://im.example/fetch" IM, mk "ki" IM IM ["ki"] [] None None [] 1000%Z);
          (fetch_key "https://ta.example/fetch" IM, ta_sub None)].
Lemma c23_witness : exists w tas types start c,
  returned w tas types start c /\ ~ NoDup (map st_iss (removelast c)).
Proof.
  exists net_loop, tas0, [], "https://x.example",
    [looping; mk "ki" IM IM ["ki"] [] None None [] 1000%Z; ta_sub None; ta_cfg].
  split; [ret|]. cbn. intros N. inversion N; subst. apply H1. simpl; auto.
Qed.

Lemma c23_case : exists s, returned net0 tas0 [] LEAF (chain0 leaf0 None None []) /\
  w_config net0 [] LEAF = Some s /\ st_iss s = st_sub s /\
  map st_iss (removelast (chain0 leaf0 None None [])) = [LEAF; IM; TA].
Proof. exists leaf0. split; [apply net0_returned|]. repeat split. Qed.

(** *** C24 *)
Definition max_path (m : Z) : option constraints := Some (Constraints (Some m) None None).
Lemma c24_case :
  returned (net LEAF leaf0 None (max_path 1) []) tas0 [] LEAF (chain0 leaf0 None (max_path 1) []) /\
  subordinate (chain0 leaf0 None (max_path 1) []) [leaf0; im_sub LEAF None []] (ta_sub (max_path 1)) /\
  (forall c, ~ returned (net LEAF leaf0 None (max_path 0) []) tas0 [] LEAF c) .
Proof.
  split; [ret|]. split.
  - exists [ta_cfg]. repeat split; discriminate.
  - intros c (fuel & cs & H & Hc).
    assert (K : forall f, resolve_chains (S (S f)) (net LEAF leaf0 None (max_path 0) []) tas0 [] LEAF = Done (Ok [])) by reflexivity.
    assert (K' : forall f, resolve_valid (S (S f)) (net LEAF leaf0 None (max_path 0) []) tas0 [] LEAF = Done (Ok [])) by reflexivity.
    destruct fuel as [|[|f]]; destruct H as [H|H]; try discriminate H.
    + rewrite K in H. injection H as <-. destruct Hc.
    + rewrite K' in H. injection H as <-. destruct Hc.
Qed.

(** *** C25 *)
Definition BAD := "https://leaf.evil.example".
Definition leaf_two_names : stmt := mk "kl" BAD "https://ok.example" ["kl"] [IM] md_rp_only None [] 1000%Z.
Definition no_evil : option constraints := Some (Constraints None (Some (Naming None [".evil.example"])) None).
Lemma c25_witness : exists w tas types start c lower s co n x y,
  returned w tas types start c /\ subordinate c lower s /\
  st_constraints s = Some co /\ co_naming co = Some n /\
  In x (lower ++ [s])%list /\ In y (nc_excluded n) /\ name_matches w y (st_sub x).
Proof.
  exists (net BAD leaf_two_names None no_evil []), tas0, [], BAD, (chain0 leaf_two_names None no_evil []),
    [leaf_two_names; im_sub BAD None []], (ta_sub no_evil), (Constraints None (Some (Naming None [".evil.example"])) None),
    (Naming None [".evil.example"]), (im_sub BAD None []), ".evil.example".
  split; [ret|]. split; [exists [ta_cfg]; repeat split; discriminate|].
  split; [reflexivity|]. split; [reflexivity|]. split; [simpl; auto|]. split; [simpl; auto|].
  exists "leaf.evil.example". split; [reflexivity|]. left. exists "evil.example". split; [reflexivity|]. now exists "leaf".
Qed.

Definition only_example : option constraints :=
  Some (Constraints None (Some (Naming (Some [".example"]) [".evil.example"])) None).
Lemma c25_case :
  self_named (net LEAF leaf0 None only_example []) LEAF /\
  returned (net LEAF leaf0 None only_example []) tas0 [] LEAF (chain0 leaf0 None only_example []) /\
  subordinate (chain0 leaf0 None only_example []) [leaf0; im_sub LEAF None []] (ta_sub only_example).
Proof.
  split; [now intros s [= <-]|]. split; [ret|]. exists [ta_cfg]. repeat split; discriminate.
Qed.

(** *** C26 *)
Definition leaf_extra : stmt :=
  mk "kl" LEAF LEAF ["kl"] [IM] (Some (Metadata None None None None None None [("credential_issuer", VMap TAny false [])])) None [] 1000%Z.
Definition no_types : option constraints := Some (Constraints None None (Some [])).
Lemma c26_witness : exists w tas types start c lower s co l e r t,
  returned w tas types start c /\ subordinate c lower s /\
  st_constraints s = Some co /\ co_types co = Some l /\ c = e :: r /\
  In t (all_types_of e) /\ ~ In t l /\ t <> "federation_entity".
Proof.
  exists (net LEAF leaf_extra None no_types []), tas0, [], LEAF, (chain0 leaf_extra None no_types []),
    [leaf_extra; im_sub LEAF None []], (ta_sub no_types), (Constraints None None (Some [])), [], leaf_extra.
  eexists. exists "credential_issuer". split; [ret|]. split; [exists [ta_cfg]; repeat split; discriminate|].
  split; [reflexivity|]. split; [reflexivity|]. split; [reflexivity|]. split; [simpl; auto|]. split; [intros []|discriminate].
Qed.

Definition only_rp : option constraints := Some (Constraints None None (Some ["openid_relying_party"])).
Lemma c26_case :
  returned (net LEAF leaf0 None only_rp []) tas0 [] LEAF (chain0 leaf0 None only_rp []) /\
  subordinate (chain0 leaf0 None only_rp []) [leaf0; im_sub LEAF None []] (ta_sub only_rp) /\
  types_of leaf0 = ["openid_relying_party"].
Proof.
  split; [ret|]. split; [exists [ta_cfg]; repeat split; discriminate|reflexivity].
Qed.

(** *** C27 *)
Definition hops0 : list hop := [Hop 1 im_cfg (im_sub LEAF None []); Hop 0 ta_cfg (ta_sub None)].
Ltac vt := split; right; vm_compute; discriminate.
Lemma c27_case :
  start_config net0 [] LEAF leaf0 /\ path_up net0 tas0 [] leaf0 [] hops0 /\
  signed_up net0 tas0 leaf0 None hops0 /\ chain_along leaf0 hops0 = chain0 leaf0 None None [] /\
  exists cs, resolve_valid 5 net0 tas0 [] LEAF = Done (Ok cs).
Proof.
  split. { split; [discriminate|]. exists leaf0. eexists. repeat split. }
  split.
  { unfold hops0. constructor; try reflexivity; try vt.
    - intros [K|[]]; discriminate.
    - intros x [<-|[]]; discriminate.
    - discriminate.
    - discriminate.
    - constructor; try reflexivity; try vt.
      + intros [K|[]]; discriminate.
      + intros x [<-|[<-|[]]]; discriminate.
      + discriminate.
      + discriminate.
      + constructor. now left. }
  split.
  { unfold hops0. constructor; [exists "kl", []; auto|discriminate|].
    constructor; [exists "ki", []; auto|intros ? [= <-]; exists "ki", []; auto|].
    apply (su_anchor _ _ _ _ (Some ["kt"])).
    - exists [], (Anchor TA (Some ["kt"])), []. repeat split. intros x [].
    - exists "kt", []; auto.
    - exists "kt", []; auto. }
  split; [reflexivity|]. eexists. vm_compute. reflexivity.
Qed.

(** *** C28 *)
(** Every entity x exists and names "x'" as its superior. *)
Definition tower_cfg (a : string) : stmt :=
  mk "k" a a ["k"] [String "x" a] (md_fetch a) None [] 1000%Z.
Definition tower : world :=
  World (fun _ a => Some (tower_cfg a)) (fun _ ep sub iss => Some (mk "k" iss sub ["k"] [] None None [] 1000%Z))
        (fun _ _ => 500%Z) (fun _ _ => true) (fun _ => None).

Definition longer (a : string) (ids : list string) : Prop := forall x, In x ids -> String.length x <= String.length a.

Lemma fetch_endpoint_tower a : fetch_endpoint (tower_cfg a) = a.
Proof. reflexivity. Qed.

Lemma tower_step p a types ids d : longer a ids ->
  hint_step tower p (tower_cfg a) d types ids (String "x" a) =
  Some (tower_cfg (String "x" a), mk "k" (String "x" a) a ["k"] [] None None [] 1000%Z).
Proof.
  intros L. unfold hint_step.
  assert (M : mem (String "x" a) ids = false).
  { destruct (mem (String "x" a) ids) eqn:E; auto. unfold mem in E. apply existsb_exists in E.
    destruct E as (y & Hy & E). apply String.eqb_eq in E. subst y. apply L in Hy. simpl in Hy. lia. }
  rewrite M. cbn [tower w_config]. rewrite fetch_endpoint_tower.
  change (w_fetch tower p (String "x" a) (st_iss (tower_cfg a)) (String "x" a))
    with (Some (mk "k" (String "x" a) a ["k"] [] None None [] 1000%Z)).
  cbn [tower_cfg mk st_iss st_sub w_now w_fetch st_constraints check_constraints].
  rewrite !String.eqb_refl. reflexivity.
Qed.

Lemma tower_diverges f : forall p a types ids d sub, longer a ids ->
  resolve f tower [] p d types ids (tower_cfg a) sub = None.
Proof.
  induction f as [|f IH]; intros p a types ids d sub L; [reflexivity|].
  cbn [resolve]. change (mem (st_iss (tower_cfg a)) (anchor_ids [])) with false.
  change (st_hints (tower_cfg a)) with [String "x" a]. cbv iota. cbn [hints_loop].
  rewrite tower_step by exact L. rewrite IH; [reflexivity|].
  intros y [<-|Hy]; [simpl; lia|]. specialize (L y Hy). simpl. lia.
Qed.

Lemma c28_witness : exists w tas start, forall fuel, resolve_valid fuel w tas [] start = OutOfFuel.
Proof.
  exists tower, [], "a". intros fuel. unfold resolve_valid, resolve_chains, resolve_tree.
  change (String.eqb "a" "") with false. cbv iota.
  change (w_config tower [] "a") with (Some (tower_cfg "a")). cbv iota.
  change (st_metadata (tower_cfg "a")) with (md_fetch "a"). unfold md_fetch at 1. cbv iota zeta.
  change (with_metadata (tower_cfg "a") _) with (tower_cfg "a").
  rewrite tower_diverges; [reflexivity|]. intros x [<-|[]]. simpl; lia.
Qed.

Lemma c28_case : forall p a ec, w_config net0 p a = Some ec -> incl (st_hints ec) ["https://down.example"; IM; TA].
Proof.
  intros p a ec. cbn [net0 net tables w_config lookup].
  repeat match goal with |- context [String.eqb a ?b] => destruct (String.eqb a b) end; intros [= <-];
    intros y Hy; simpl in *; tauto.
Qed.

(** *** C29 *)
Lemma c29_case :
  exists cs cs', resolve_chains 5 net0 tas0 [] LEAF = Done (Ok cs) /\ List.length cs = 1 /\
    resolve_chains 5 (only 1 net0) tas0 [] LEAF = Done (Ok cs') /\ cs' = cs /\
    resolve_chains 5 (only 0 net0) tas0 [] LEAF = Done (Ok []).
Proof. eexists _, _. split; [vm_compute; reflexivity|]. split; [reflexivity|]. split; [vm_compute; reflexivity|]. split; reflexivity. Qed.

(** *** C30 *)
Definition leaf_bare : stmt := mk "kl" LEAF LEAF ["kl"] [IM] None None [] 1000%Z.
Lemma c30_witness : exists w tas types start, forall fuel, resolve_valid fuel w tas types start = Done Panic.
Proof. exists (net LEAF leaf_bare None None []), tas0, [], LEAF. reflexivity. Qed.

Lemma c30_case : exists cs, resolve_valid 5 net0 tas0 [] LEAF = Done (Ok cs) /\ cs <> [].
Proof. eexists. split; [vm_compute; reflexivity|discriminate]. Qed.

(** *** C39 *)
Lemma c39_witness : exists w tas types start c s x,
  returned w tas types start c /\ In s c /\ In x (st_crit s).
Proof.
  exists (net LEAF leaf0 None None ["future_claim"]), tas0, [], LEAF, (chain0 leaf0 None None ["future_claim"]),
    (im_sub LEAF None ["future_claim"]), "future_claim".
  split; [ret|]. split; simpl; auto.
Qed.

(** *** C29: an authority that leads into an endless tower *)
Definition net_tower : world :=
  World (fun p a => match lookup a [(LEAF, leaf0); (IM, im_cfg); (TA, ta_cfg)] with
                    | Some s => Some s | None => Some (tower_cfg a) end)
        (fun p ep sub iss => match lookup (fetch_key ep sub)
             [(fetch_key "https://im.example/fetch" LEAF, im_sub LEAF None []);
              (fetch_key "https://ta.example/fetch" IM, ta_sub None)] with
                    | Some s => Some s | None => Some (mk "k" iss sub ["k"] [] None None [] 1000%Z) end)
        (w_now net0) (w_verify net0) (w_host net0).

Definition endless (a : string) : Prop := exists b, a = b ++ "https://down.example".

Lemma lookup_miss {V} (m : smap V) k : (forall x, In x (map fst m) -> x <> k) -> lookup k m = None.
Proof.
  induction m as [|[k' v] m IH]; intros H; [reflexivity|]. cbn [lookup].
  destruct (String.eqb_spec k k') as [->|N]; [exfalso; apply (H k'); simpl; auto|].
  apply IH. intros x Hx. apply H. simpl; auto.
Qed.

Lemma suffix_spec b x : has_suffix x (b ++ x) = true.
Proof.
  induction b as [|c b IH].
  - simpl. destruct x; cbn [has_suffix]; now rewrite String.eqb_refl.
  - cbn [append has_suffix]. rewrite IH. apply orb_true_r.
Qed.

Lemma endless_config a : endless a -> forall p, w_config net_tower p a = Some (tower_cfg a).
Proof.
  intros (b & ->) p. cbn [net_tower w_config]. rewrite lookup_miss; [reflexivity|].
  intros x Hx E. pose proof (suffix_spec b "https://down.example") as S. rewrite <- E in S.
  simpl in Hx. destruct Hx as [<-|[<-|[<-|[]]]]; vm_compute in S; discriminate.
Qed.

Lemma append_assoc a b c : (a ++ b) ++ c = a ++ (b ++ c).
Proof. induction a as [|x a IH]; simpl; [reflexivity|now rewrite IH]. Qed.
Lemma append_length a b : String.length (a ++ b) = String.length a + String.length b.
Proof. induction a as [|x a IH]; simpl; [reflexivity|now rewrite IH]. Qed.

(** The key under which an entity of the tower is asked about [sub] is not in the table. *)
Lemma has_prefix_app p s : has_prefix p (p ++ s) = true.
Proof. induction p as [|c p IH]; simpl; [reflexivity|]. now rewrite Ascii.eqb_refl. Qed.

Lemma endless_fetch p x sub iss :
  w_fetch net_tower p (String "x" x) sub iss = Some (mk "k" iss sub ["k"] [] None None [] 1000%Z).
Proof.
  cbn [net_tower w_fetch]. rewrite lookup_miss; [reflexivity|].
  intros y Hy. simpl in Hy. destruct Hy as [<-|[<-|[]]]; discriminate.
Qed.

Lemma endless_step p a types ids d : endless a -> longer a ids ->
  hint_step net_tower p (tower_cfg a) d types ids (String "x" a) =
  Some (tower_cfg (String "x" a), mk "k" (String "x" a) a ["k"] [] None None [] 1000%Z).
Proof.
  intros En L. unfold hint_step.
  assert (M : mem (String "x" a) ids = false).
  { destruct (mem (String "x" a) ids) eqn:E; auto. unfold mem in E. apply existsb_exists in E.
    destruct E as (y & Hy & E). apply String.eqb_eq in E. subst y. apply L in Hy. simpl in Hy. lia. }
  rewrite M. rewrite endless_config.
  2: { destruct En as (b & ->). exists (String "x" b). reflexivity. }
  rewrite fetch_endpoint_tower, endless_fetch.
  cbn [tower_cfg mk st_iss st_sub w_now w_fetch st_constraints check_constraints].
  rewrite !String.eqb_refl. reflexivity.
Qed.

Lemma endless_diverges f : forall p a types ids d sub, endless a -> longer a ids ->
  resolve f net_tower tas0 p d types ids (tower_cfg a) sub = None.
Proof.
  induction f as [|f IH]; intros p a types ids d sub En L; [reflexivity|].
  cbn [resolve].
  assert (M : mem (st_iss (tower_cfg a)) (anchor_ids tas0) = false).
  { change (st_iss (tower_cfg a)) with a. destruct En as (b & ->). unfold mem. cbn [tas0 anchor_ids map existsb ta_id].
    destruct (String.eqb_spec (b ++ "https://down.example") TA) as [E|]; [|reflexivity].
    pose proof (suffix_spec b "https://down.example") as S. rewrite E in S. vm_compute in S. discriminate. }
  rewrite M. change (st_hints (tower_cfg a)) with [String "x" a]. cbv iota. cbn [hints_loop].
  rewrite endless_step by assumption. rewrite IH; [reflexivity| |].
  - destruct En as (b & ->). now exists (String "x" b).
  - intros y [<-|Hy]; [simpl; lia|]. specialize (L y Hy). simpl. lia.
Qed.

Definition DOWN := "https://down.example".
Lemma down_step types ids d : mem DOWN ids = false ->
  hint_step net_tower [0] leaf0 d types ids DOWN = Some (tower_cfg DOWN, mk "k" DOWN LEAF ["k"] [] None None [] 1000%Z).
Proof. intros M. unfold hint_step. rewrite M. reflexivity. Qed.

Lemma c29_witness : exists w tas start,
  (forall fuel, resolve_valid fuel w tas [] start = OutOfFuel) /\
  exists i c, returned (only i w) tas [] start c /\ 3 <= List.length c.
Proof.
  exists net_tower, tas0, LEAF. split.
  - intros fuel. unfold resolve_valid, resolve_chains, resolve_tree.
    change (String.eqb LEAF "") with false. cbv iota.
    change (w_config net_tower [] LEAF) with (Some leaf0). cbv iota.
    change (st_metadata leaf0) with md_rp_only. unfold md_rp_only at 1. cbv iota zeta.
    change (with_metadata leaf0 _) with leaf0.
    destruct fuel as [|f]; [reflexivity|]. cbn [resolve].
    change (mem (st_iss leaf0) (anchor_ids tas0)) with false.
    change (st_hints leaf0) with [DOWN; IM]. cbv iota. cbn [hints_loop].
    rewrite down_step by reflexivity. rewrite endless_diverges; [reflexivity| |].
    + now exists "".
    + intros x [<-|[<-|[]]]; vm_compute; lia.
  - exists 1, (chain0 leaf0 None None []). split; [ret|simpl; lia].
Qed.
