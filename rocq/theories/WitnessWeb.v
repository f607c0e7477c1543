(** Concrete cases for PropertiesWeb.v. *)
From Verif Require Import Base GoVal Policy Schema Metadata Chain Resolver SpecResolver TrustMark Json Leaf SpecLeaf
  Web SpecWeb WebFacts WitnessResolver.
Local Open Scope nat_scope.
Local Open Scope string_scope.

(** A network whose hosts are those net/url sees. *)
Definition with_urls (w : world) : world := World (w_config w) (w_fetch w) (w_now w) (w_verify w) hostname.
Lemma with_urls_real w : real_urls (with_urls w).
Proof. intros id. reflexivity. Qed.

(** *** C100 *)
Lemma c100_case : hostname "https://user@Leaf.example:8443/tenant/a?x=1#f" = Some "Leaf.example" /\
  hostname (config_url "https://user@Leaf.example:8443/tenant/a") = Some "Leaf.example" /\
  config_url "https://leaf.example/" = "https://leaf.example/.well-known/openid-federation" /\
  hostname "https://[2001:db8::1]:443/a" = Some "2001:db8::1" /\
  hostname "https://leaf.example:port" = None.
Proof. repeat split; vm_compute; reflexivity. Qed.

(** *** C101 *)
Definition SHOUT := "https://leaf.EVIL.example".
Definition leaf_shout : stmt := mk "kl" SHOUT SHOUT ["kl"] [IM] md_rp_only None [] 1000%Z.
Lemma c101_witness : exists w tas types start c low s co n x y h,
  real_urls w /\ self_named w start /\ returned w tas types start c /\ subordinate c low s /\
  st_constraints s = Some co /\ co_naming co = Some n /\ In x (low ++ [s])%list /\
  In y (nc_excluded n) /\ hostname (st_sub x) = Some h /\ named_by y h.
Proof.
  exists (with_urls (net SHOUT leaf_shout None no_evil [])), tas0, [], SHOUT, (chain0 leaf_shout None no_evil []),
    [leaf_shout; im_sub SHOUT None []], (ta_sub no_evil), (Constraints None (Some (Naming None [".evil.example"])) None),
    (Naming None [".evil.example"]), leaf_shout, ".evil.example", "leaf.EVIL.example".
  split; [apply with_urls_real|]. split.
  { unfold self_named. intros; match goal with H : _ |- _ => vm_compute in H; injection H as <-; reflexivity end. }
  split; [ret|]. split; [exists [ta_cfg]; repeat split; discriminate|].
  split; [reflexivity|]. split; [reflexivity|]. split; [simpl; auto|]. split; [simpl; auto|].
  split; [vm_compute; reflexivity|]. left. exists "evil.example". split; [reflexivity|].
  exists ["leaf"]. split; [discriminate|reflexivity].
Qed.
Lemma c101_case : real_urls (with_urls (net LEAF leaf0 None only_example [])) /\
  self_named (with_urls (net LEAF leaf0 None only_example [])) LEAF /\
  returned (with_urls (net LEAF leaf0 None only_example [])) tas0 [] LEAF (chain0 leaf0 None only_example []) /\
  subordinate (chain0 leaf0 None only_example []) [leaf0; im_sub LEAF None []] (ta_sub only_example) /\
  named_by ".Example" "leaf.example" /\ ~ named_by ".example" "example" /\ ~ named_by ".evil.example" "devil.example".
Proof.
  split; [apply with_urls_real|]. split.
  { unfold self_named. intros; match goal with H : _ |- _ => vm_compute in H; injection H as <-; reflexivity end. }
  split; [ret|]. split; [exists [ta_cfg]; repeat split; discriminate|]. repeat split.
  - left. exists "example". split; [reflexivity|]. exists ["leaf"]. split; [discriminate|reflexivity].
  - intros [(d & [= <-] & l & N & E)|[_ E]]; [|discriminate E]. vm_compute in E. destruct l as [|x [|y l]]; try discriminate; try contradiction.
  - intros [(d & [= <-] & l & N & E)|[_ E]]; [|discriminate E]. vm_compute in E. destruct l as [|x [|y [|z l]]]; try discriminate; try contradiction.
Qed.

(** *** C102 *)
Lemma c102_witness : exists a b, a <> b /\ config_url a = config_url b.
Proof. exists "https://leaf.example", "https://leaf.example/". split; [discriminate|reflexivity]. Qed.

(** *** C103 *)
Definition as_is (s : string) : option string := Some s.
Definition checked (s : string) : option string :=
  match cut "?" s, cut "#" s with
  | (a, _), (b, _) => if String.eqb a s && String.eqb b s then Some s else None
  end.
Lemma checked_keeps : keeps_base checked.
Proof.
  intros b b'. unfold checked. destruct (cut "?" b) as [x1 y1] eqn:E1, (cut "#" b) as [x2 y2] eqn:E2.
  destruct (String.eqb_spec x1 b) as [->|]; [|discriminate]. destruct (String.eqb_spec x2 b) as [->|]; [|discriminate].
  intros [= <-]. pose proof (cut_fst_free "?" b) as F1. pose proof (cut_fst_free "#" b) as F2.
  rewrite E1 in F1. rewrite E2 in F2. split; apply LeafFacts.cut_free; assumption.
Qed.
Lemma no_query_plain u : query_of u = "" -> plain_endpoint u.
Proof. intros H k. unfold url_values. now rewrite H. Qed.
Lemma c103_case : keeps_base checked /\ plain_endpoint "https://im.example/fetch" /\
  request_url checked "https://im.example/fetch" (fetch_params "https://leaf.example/a&b=c") =
    Some "https://im.example/fetch?sub=https%3A%2F%2Fleaf.example%2Fa%26b%3Dc" /\
  request_url checked "https://im.example/fetch?tenant=1" (mark_params "https://m.example" "https://leaf.example") =
    Some "https://im.example/fetch?tenant=1&sub=https%3A%2F%2Fleaf.example&trust_mark_type=https%3A%2F%2Fm.example" /\
  plain_endpoint "https://ta.example/resolve" /\
  request_url checked "https://ta.example/resolve" (resolve_params (ResolveRequest "https://leaf.example" ["https://ta.example"] [])) =
    Some "https://ta.example/resolve?sub=https%3A%2F%2Fleaf.example&trust_anchor=https%3A%2F%2Fta.example".
Proof.
  split; [apply checked_keeps|]. split; [now apply no_query_plain|]. split; [vm_compute; reflexivity|].
  split; [vm_compute; reflexivity|]. split; [now apply no_query_plain|]. vm_compute; reflexivity.
Qed.
Definition named_bank : collection_request := CollectionRequest "" "0" [] "https://ta.example" [] "bank" [].
Lemma c103_witness : exists canon endpoint r u, keeps_base canon /\ plain_endpoint endpoint /\
  request_url canon endpoint (collection_params r) = Some u /\
  collection_wants r "name_query" = ["bank"] /\ url_values "name_query" u = [].
Proof.
  exists checked, "https://ta.example/collection", named_bank.
  eexists. split; [apply checked_keeps|]. split; [now apply no_query_plain|]. split; [vm_compute; reflexivity|].
  split; [reflexivity|vm_compute; reflexivity].
Qed.
Lemma c103_own : exists canon endpoint sub other u, keeps_base canon /\ sub <> other /\
  request_url canon endpoint (fetch_params sub) = Some u /\ url_values "sub" u = [other; sub].
Proof.
  exists checked, "https://im.example/fetch?sub=https://x.example", "https://leaf.example", "https://x.example".
  eexists. split; [apply checked_keeps|]. split; [discriminate|]. split; vm_compute; reflexivity.
Qed.

(** *** C104 *)
Lemma c104_witness : exists (D : Type) err_of (parse : string -> res D) r d, ~ success r /\ http_document err_of parse r = Ok d.
Proof.
  exists string, (fun _ => ""), (fun b => Ok b), (HReply 404 false "jwt"), "jwt". split; [|reflexivity].
  intros (s & j & b & [= <- _ _] & L). lia.
Qed.
Lemma c104_case : http_document (fun b => if String.eqb b "{""error"":""not_found""}" then "not_found" else "") (fun b => Ok b)
    (HReply 404 true "{""error"":""not_found""}") = (Err : res string) /\
  http_document (fun _ => "") (fun b => Ok b) (HReply 200 false "jwt") = Ok "jwt".
Proof. split; reflexivity. Qed.

Lemma only_dec set s : all_bytes (fun c => mem_byte c set) s = true -> only set s.
Proof.
  induction s as [|c s IH]; [split|]. cbn [all_bytes]. intros H. apply andb_prop in H as [H1 H2]. split; [|auto].
  clear IH H2. induction set as [|d t IH]; [discriminate|]. cbn [mem_byte] in H1. apply Bool.orb_true_iff in H1 as [H1|H1].
  - apply Ascii.eqb_eq in H1. subst. exists "", t. reflexivity.
  - destruct (IH H1) as (a & b & ->). exists (String d a), b. reflexivity.
Qed.
Lemma c100_ordinary_case :
  ordinary_url "https" "me@" "leaf.example" ":8443" "/tenant" "?x=https://evil.example" "#@evil" /\
  url_of "https" "me@" "leaf.example" ":8443" "/tenant" "?x=https://evil.example" "#@evil"
    = "https://me@leaf.example:8443/tenant?x=https://evil.example#@evil" /\
  hostname "https://leaf%2Fevil.example/" = None /\ hostname "https://leaf.example%40evil/" = None.
Proof.
  split; [|split; [reflexivity|split; reflexivity]]. constructor.
  - exists "h"%char, "ttps". split; [reflexivity|]. split; apply only_dec; reflexivity.
  - right. exists "me". split; [reflexivity|]. apply only_dec. reflexivity.
  - split; [discriminate|]. apply only_dec. reflexivity.
  - right. exists "8443". split; [reflexivity|]. apply only_dec. reflexivity.
  - right. exists "tenant". split; [reflexivity|]. apply only_dec. reflexivity.
  - right. exists "x=https://evil.example". split; [reflexivity|]. apply only_dec. reflexivity.
  - right. exists "@evil". split; [reflexivity|]. apply only_dec. reflexivity.
Qed.
