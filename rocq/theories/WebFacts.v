(** Proofs about where requests go. *)
From Verif Require Import Base BaseFacts GoVal Policy Schema Metadata Chain Resolver SpecResolver ResolverFacts ResolverLaws TrustMark Json JsonFacts
  Leaf SpecLeaf LeafFacts Web SpecWeb.
Local Open Scope nat_scope.
Local Open Scope string_scope.

(** ** Strings *)
Lemma app_nil s : s ++ "" = s.
Proof. induction s as [|c s IH]; [reflexivity|]. cbn. now rewrite IH. Qed.
Lemma all_bytes_app p a b : all_bytes p (a ++ b) = all_bytes p a && all_bytes p b.
Proof. induction a as [|c a IH]; [reflexivity|]. cbn [append all_bytes]. now rewrite IH, Bool.andb_assoc. Qed.
Lemma cut_join d s : (exists a b, cut d s = (a, b) /\ s = a ++ String d b /\ free d a = true) \/ (cut d s = (s, "") /\ free d s = true).
Proof.
  induction s as [|c s IH]; [right; auto|]. cbn [cut free]. destruct (Ascii.eqb d c) eqn:E.
  - apply Ascii.eqb_eq in E. subst. left. exists "", s. auto.
  - destruct IH as [(a & b & C & -> & F)|[C F]]; rewrite C.
    + left. exists (String c a), b. cbn [free append]. rewrite E, F. auto.
    + right. cbn. rewrite F. auto.
Qed.

(** The URL of the entity configuration as a function on what follows any prefix *)
Lemma trim_cons c r : r <> "" -> trim_slash (String c r) = String c (trim_slash r).
Proof. intros H. destruct r; [contradiction|]. destruct c as [[] [] [] [] [] [] [] []]; reflexivity. Qed.
Lemma config_app a b : b <> "" -> config_url (a ++ b) = a ++ config_url b.
Proof.
  intros B. unfold config_url. induction a as [|c a IH]; [reflexivity|].
  cbn [append]. rewrite trim_cons.
  - cbn [append]. now rewrite IH.
  - destruct a; [exact B|discriminate].
Qed.
Lemma trim_other c : c <> "/"%char -> trim_slash (String c "") = String c "".
Proof. intros H. destruct c as [[] [] [] [] [] [] [] []]; try reflexivity. now contradiction H. Qed.
Lemma config_nil : config_url "" = federation_suffix.
Proof. reflexivity. Qed.
Lemma config_cons c b : c <> "/"%char -> config_url (String c b) = String c (config_url b).
Proof.
  intros H. destruct b as [|d b].
  - unfold config_url. now rewrite trim_other.
  - now apply (config_app (String c "")).
Qed.
Lemma trim_form s : trim_slash s = s \/ s = trim_slash s ++ "/".
Proof.
  induction s as [|c s IH]; [now left|]. destruct s as [|d s].
  - destruct (ascii_dec c "/") as [->|N]; [now right|]. left. now apply trim_other.
  - rewrite trim_cons by discriminate. destruct IH as [IH|IH]; [left; now rewrite IH|right]. cbn [append]. now rewrite <- IH.
Qed.
Lemma all_bytes_config p s : all_bytes p s = true -> all_bytes p federation_suffix = true -> all_bytes p (config_url s) = true.
Proof.
  intros H F. unfold config_url. rewrite all_bytes_app, F, Bool.andb_true_r.
  destruct (trim_form s) as [-> | E]; [exact H|]. rewrite E, all_bytes_app in H. now apply andb_prop in H.
Qed.
Lemma free_config d s : free d s = true -> free d federation_suffix = true -> free d (config_url s) = true.
Proof.
  intros H F. unfold config_url. rewrite free_app, F, Bool.andb_true_r.
  destruct (trim_form s) as [-> | E]; [exact H|]. rewrite E, free_app in H. now apply andb_prop in H.
Qed.

(** ** Escapes *)
Lemma escapes_app a : forall b, escapes_ok a = true -> escapes_ok b = true -> escapes_ok (a ++ b) = true.
Proof.
  remember (String.length a) as n eqn:L. revert a L.
  induction n as [n IH] using lt_wf_ind. intros a L b. destruct a as [|c a]; [auto|].
  cbn [append escapes_ok]. destruct (Ascii.eqb c "%").
  - destruct a as [|x [|y a]]; try discriminate. cbn [append]. intros H B. apply andb_prop in H. destruct H as [H H2].
    rewrite H. cbn [andb]. apply (IH (String.length a)); auto. subst n. cbn. lia.
  - intros H B. apply (IH (String.length a)); auto. subst n. cbn. lia.
Qed.
Lemma escapes_pre a : escapes_ok (a ++ "/") = true -> escapes_ok a = true.
Proof.
  remember (String.length a) as n eqn:L. revert a L.
  induction n as [n IH] using lt_wf_ind. intros a L. destruct a as [|c a]; [auto|].
  cbn [append escapes_ok]. destruct (Ascii.eqb c "%").
  - destruct a as [|x [|y a]]; cbn [append].
    + discriminate.
    + cbn [append]. intros H. apply andb_prop in H. destruct H as [H _]. apply andb_prop in H. destruct H as [_ H]. discriminate H.
    + intros H. apply andb_prop in H. destruct H as [H H2]. rewrite H. cbn [andb]. apply (IH (String.length a)); auto. subst n. cbn. lia.
  - intros H. apply (IH (String.length a)); auto. subst n. cbn. lia.
Qed.
Lemma escapes_config s : escapes_ok s = true -> escapes_ok (config_url s) = true.
Proof.
  intros H. unfold config_url. apply escapes_app; [|reflexivity].
  destruct (trim_form s) as [-> | E]; [exact H|]. rewrite E in H. now apply escapes_pre.
Qed.

(** ** Hosts *)
Lemma get_scheme_found f s r : get_scheme f s = SFound r ->
  exists pre, s = pre ++ String ":" r /\ forall r', get_scheme f (pre ++ String ":" r') = SFound r'.
Proof.
  revert f. induction s as [|c s IH]; [discriminate|]. intros f. cbn [get_scheme].
  destruct (letter c) eqn:L.
  { intros H. destruct (IH _ H) as (pre & -> & P). exists (String c pre). split; [reflexivity|]. intros r'. cbn [append get_scheme]. rewrite L. apply P. }
  destruct (digit c || mem_byte c "+-.") eqn:D.
  { destruct f; [discriminate|]. intros H. destruct (IH _ H) as (pre & -> & P). exists (String c pre).
    split; [reflexivity|]. intros r'. cbn [append get_scheme]. rewrite L, D. apply P. }
  destruct (Ascii.eqb c ":") eqn:E; [|discriminate]. destruct f; [discriminate|]. intros [= ->].
  apply Ascii.eqb_eq in E. subst c. exists "". split; [reflexivity|]. intros r'. reflexivity.
Qed.
Lemma to_slash_app a : to_slash a = (fst (to_slash a), snd (to_slash a)) /\
  a = fst (to_slash a) ++ snd (to_slash a) /\
  (forall r, to_slash (fst (to_slash a) ++ String "/" r) = (fst (to_slash a), String "/" r)) /\
  free "/" (fst (to_slash a)) = true /\ (snd (to_slash a) = "" \/ exists r, snd (to_slash a) = String "/" r).
Proof.
  induction a as [|c a IH].
  - cbn. repeat split; auto.
  - cbn [to_slash]. destruct (Ascii.eqb c "/") eqn:E.
    + apply Ascii.eqb_eq in E. subst. cbn. repeat split; eauto.
    + destruct (to_slash a) as [x y]. cbn [fst snd] in *. destruct IH as (_ & A & B & C & D). repeat split; auto.
      * cbn. now rewrite A at 1.
      * intros r. cbn [append to_slash]. now rewrite E, B.
      * cbn [free]. rewrite C, Ascii.eqb_sym, E. reflexivity.
Qed.

Lemma to_slash_config a : fst (to_slash a) <> "" ->
  exists r, config_url a = fst (to_slash a) ++ String "/" r /\
            (escapes_ok (snd (to_slash a)) = true -> escapes_ok (String "/" r) = true).
Proof.
  intros N. destruct (to_slash_app a) as (_ & A & _ & F & [Z | [r Z]]).
  - rewrite Z, app_nil in A. exists ".well-known/openid-federation". split; [|intros _; vm_compute; reflexivity].
    rewrite <- A. unfold config_url. change (String "/" ".well-known/openid-federation") with federation_suffix. f_equal.
    destruct (trim_form a) as [E|E]; [exact E|]. exfalso. rewrite <- A, E, free_app in F. cbn in F. rewrite Bool.andb_false_r in F. discriminate.
  - exists (match r with "" => ".well-known/openid-federation" | _ => config_url r end). rewrite A at 1. rewrite Z. split.
    + rewrite config_app by discriminate. f_equal. destruct r as [|d r]; [reflexivity|]. now apply (config_app "/").
    + intros E. destruct r as [|d r]; [vm_compute; reflexivity|]. apply (escapes_config (String d r)). exact E.
Qed.

Lemma parse_authority_nil : parse_authority "" = Some "".
Proof. reflexivity. Qed.

Lemma cut_config rest : fst (cut "?" (config_url rest)) = if free "?" rest then config_url (fst (cut "?" rest)) else fst (cut "?" rest).
Proof.
  destruct (cut_join "?" rest) as [(a & b & C & -> & F)|[C F]].
  - rewrite C. cbn [fst]. rewrite free_app. cbn [free]. rewrite Ascii.eqb_refl. cbn [negb andb]. rewrite Bool.andb_false_r.
    rewrite config_app by discriminate. rewrite config_cons by discriminate. now rewrite cut_app.
  - rewrite F, C. cbn [fst]. rewrite cut_free; [reflexivity|]. now apply free_config.
Qed.

Lemma prefix2 s : has_prefix "//" s = true -> exists r, s = String "/" (String "/" r).
Proof.
  destruct s as [|a [|b s]]; cbn [has_prefix]; try discriminate.
  - rewrite Bool.andb_false_r. discriminate.
  - rewrite Bool.andb_true_r. intros H. apply andb_prop in H. destruct H as [H1 H2].
    apply Ascii.eqb_eq in H1, H2. subst. eauto.
Qed.

Lemma parse_rest_config b rest h : parse_rest b rest = Some h -> h <> "" -> parse_rest b (config_url rest) = Some h.
Proof.
  unfold parse_rest. rewrite cut_config. destruct (free "?" rest); [|auto].
  set (p := fst (cut "?" rest)). clearbody p. clear rest. intros H N.
  destruct (has_prefix "/" p) eqn:P1; cbn [negb andb] in H.
  2:{ destruct b; cbn [andb negb] in H; [injection H; congruence|].
      destruct (mem_byte ":" (fst (to_slash p))); [discriminate|].
      destruct (has_prefix "//" p) eqn:P2; [exfalso; destruct (prefix2 p P2) as [r ->]; discriminate P1|].
      cbn [andb] in H. destruct p as [|x [|y p]]; [injection H; congruence| |];
        destruct (escapes_ok _); try discriminate; injection H; congruence. }
  destruct (has_prefix "//" p && (b || negb (has_prefix "///" p))) eqn:A.
  2:{ destruct p as [|x [|y p]]; [discriminate| |]; destruct (escapes_ok _); try discriminate; injection H; congruence. }
  apply andb_prop in A. destruct A as [A1 A2]. destruct (prefix2 p A1) as [r ->]. clear P1 A1.
  destruct (to_slash r) as [auth path] eqn:T. destruct (parse_authority auth) as [h'|] eqn:PA; [|discriminate].
  destruct (escapes_ok path) eqn:EP; [|discriminate]. injection H as ->.
  assert (NA : auth <> "") by (intros ->; rewrite parse_authority_nil in PA; injection PA; congruence).
  destruct (to_slash_config r) as (q & Q & EQ); [now rewrite T|]. rewrite T in Q, EQ. cbn [fst snd] in Q, EQ.
  assert (NR : r <> "") by (intros ->; cbn in T; injection T; congruence).
  assert (C : config_url (String "/" (String "/" r)) = String "/" (String "/" (auth ++ String "/" q))).
  { change (String "/" (String "/" r)) with ("//" ++ r). rewrite config_app by exact NR. now rewrite Q. }
  rewrite C. pose proof (to_slash_app r) as (_ & _ & TS & F & _). rewrite T in TS, F. cbn [fst snd] in TS, F.
  assert (NS : has_prefix "///" (String "/" (String "/" (auth ++ String "/" q))) = false).
  { destruct auth as [|x auth]; [contradiction|]. cbn [free] in F. apply andb_prop in F. destruct F as [F _].
    apply Bool.negb_true_iff in F. cbn [append has_prefix]. rewrite F. reflexivity. }
  change (has_prefix "/" (String "/" (String "/" (auth ++ String "/" q)))) with true.
  change (has_prefix "//" (String "/" (String "/" (auth ++ String "/" q)))) with true.
  rewrite NS. cbn [negb andb]. rewrite Bool.orb_true_r. cbn [andb].
  rewrite TS, PA. now rewrite (EQ EP).
Qed.

Lemma host_config id h : url_host id = Some h -> h <> "" -> url_host (config_url id) = Some h.
Proof.
  unfold url_host. intros H N. destruct (cut_join "#" id) as [(u & frag & C & -> & F)|[C F]].
  - rewrite C in H. rewrite config_app by discriminate. rewrite config_cons by discriminate. rewrite cut_app by exact F.
    destruct (no_control u); cbn [negb] in *; [|discriminate].
    destruct (match get_scheme true u with SBad => None | SFound rest => parse_rest true rest | SNone => parse_rest false u end); [|discriminate].
    destruct (escapes_ok frag) eqn:E; [|discriminate]. injection H as ->. now rewrite escapes_config.
  - rewrite C in H. rewrite cut_free by (now apply free_config).
    destruct (no_control id) eqn:NC; cbn [negb] in H; [|discriminate].
    unfold no_control in *. rewrite all_bytes_config by (auto; vm_compute; reflexivity). cbn [negb].
    destruct (get_scheme true id) as [| |rest] eqn:G; [|discriminate|].
    + destruct (parse_rest false id) as [h'|] eqn:PR; [|discriminate]. cbn [escapes_ok] in H. injection H as ->.
      assert (G' : get_scheme true (config_url id) = SNone).
      { destruct id as [|c id]; [cbn in PR; injection PR; congruence|]. destruct (ascii_dec c "/") as [->|NS].
        - unfold config_url. destruct id as [|d id]; [reflexivity|]. rewrite trim_cons by discriminate. reflexivity.
        - exfalso. unfold parse_rest in PR. cbn [cut] in PR. destruct (Ascii.eqb "?" c) eqn:Q.
          + cbn in PR. injection PR; congruence.
          + destruct (cut "?" id) as [a b]. cbn [fst] in PR.
            assert (HP : forall x, has_prefix (String "/" x) (String c a) = false).
            { intros x. cbn [has_prefix]. destruct (Ascii.eqb "/" c) eqn:Z; [apply Ascii.eqb_eq in Z; congruence|reflexivity]. }
            rewrite !HP in PR. cbn [negb andb] in PR. destruct (mem_byte ":" (fst (to_slash (String c a)))); [discriminate|].
            destruct a as [|x a]; destruct (escapes_ok _) in PR; try discriminate; injection PR; congruence. }
      rewrite G'. rewrite (parse_rest_config _ _ _ PR N). reflexivity.
    + destruct (parse_rest true rest) as [h'|] eqn:PR; [|discriminate]. cbn [escapes_ok] in H. injection H as ->.
      destruct (get_scheme_found _ _ _ G) as (pre & -> & P). rewrite config_app by discriminate.
      rewrite config_cons by discriminate. rewrite P. rewrite (parse_rest_config _ _ _ PR N). reflexivity.
Qed.

Lemma hostname_config id h : hostname id = Some h -> h <> "" -> hostname (config_url id) = Some h.
Proof.
  unfold hostname. destruct (url_host id) as [x|] eqn:E; [|discriminate]. cbn [option_map]. intros [= <-] N.
  rewrite (host_config _ _ E); [reflexivity|]. intros ->. now apply N.
Qed.

(** ** One URL, one entity *)
Lemma append_inj_r a b c : a ++ c = b ++ c -> a = b.
Proof.
  assert (L : forall x y, String.length (x ++ y) = String.length x + String.length y).
  { induction x as [|k x IH]; intros y; [reflexivity|]. cbn. now rewrite IH. }
  revert b. induction a as [|x a IH]; intros [|y b]; cbn [append]; intros H; auto.
  - exfalso. apply (f_equal String.length) in H. cbn in H. rewrite L in H. lia.
  - exfalso. apply (f_equal String.length) in H. cbn in H. rewrite L in H. lia.
  - injection H as -> H. f_equal. now apply IH.
Qed.
Lemma trim_app_slash s : trim_slash (s ++ "/") = s.
Proof.
  induction s as [|c s IH]; [reflexivity|]. cbn [append]. rewrite trim_cons; [now rewrite IH|]. destruct s; discriminate.
Qed.
Lemma config_url_same a b : config_url a = config_url b <-> trim_slash a = trim_slash b.
Proof. unfold config_url. split; [apply append_inj_r|intros ->; reflexivity]. Qed.
Lemma config_url_exact a b : config_url a = config_url b -> a = b \/ a = b ++ "/" \/ b = a ++ "/".
Proof.
  rewrite config_url_same. destruct (trim_form a) as [A|A], (trim_form b) as [B|B]; intros H.
  - left. congruence.
  - right. right. rewrite B. congruence.
  - right. left. rewrite A. congruence.
  - left. rewrite A, B. congruence.
Qed.
Lemma config_url_slash a : (forall b, a <> b ++ "/") -> config_url (a ++ "/") = config_url a.
Proof.
  intros H. rewrite config_url_same, trim_app_slash. destruct (trim_form a) as [E|E]; [now rewrite E|]. now contradiction (H (trim_slash a)).
Qed.

(** ** Naming constraints *)
Lemma split_cons c s : exists x l, split c s = x :: l.
Proof. induction s as [|d s IH]; cbn [split]; [eauto|]. destruct (Ascii.eqb c d); [eauto|]. destruct IH as (x & l & ->). eauto. Qed.
Lemma split_any d s t : split d (s ++ String d t) = (split d s ++ split d t)%list.
Proof.
  induction s as [|c s IH]; cbn [append split].
  - now rewrite Ascii.eqb_refl.
  - destruct (Ascii.eqb d c); [now rewrite IH|]. rewrite IH. destruct (split_cons d s) as (x & l & ->). reflexivity.
Qed.
Lemma split_join d s : String.concat (String d "") (split d s) = s.
Proof.
  induction s as [|c s IH]; [reflexivity|]. cbn [split]. destruct (Ascii.eqb d c) eqn:E.
  - apply Ascii.eqb_eq in E. subst. destruct (split_cons c s) as (x & l & Q). rewrite Q in *.
    change (String.concat (String c "") ("" :: x :: l)) with ("" ++ String c "" ++ String.concat (String c "") (x :: l)). now rewrite IH.
  - destruct (split_cons d s) as (x & l & Q). rewrite Q in *. destruct l as [|y l].
    + cbn [String.concat] in *. congruence.
    + change (String.concat (String d "") (String c x :: y :: l)) with (String c (String.concat (String d "") (x :: y :: l))). congruence.
Qed.
Lemma concat_app d l1 l2 : l1 <> [] -> l2 <> [] ->
  String.concat (String d "") (l1 ++ l2)%list = String.concat (String d "") l1 ++ String d (String.concat (String d "") l2).
Proof.
  intros N1 N2. induction l1 as [|x l1 IH]; [contradiction|]. destruct l1 as [|y l1].
  - destruct l2 as [|z l2]; [contradiction|]. reflexivity.
  - change (String.concat (String d "") ((x :: y :: l1) ++ l2)%list) with (x ++ String d "" ++ String.concat (String d "") ((y :: l1) ++ l2)%list).
    rewrite IH by discriminate.
    change (String.concat (String d "") (x :: y :: l1)) with (x ++ String d "" ++ String.concat (String d "") (y :: l1)).
    now rewrite !append_assoc.
Qed.
Lemma below_suffix d h : below d h <-> exists pre, h = pre ++ String "." d.
Proof.
  unfold below, labels. split.
  - intros (l & N & E). exists (String.concat "." l). destruct (split_cons "." d) as (x & r & Q).
    rewrite <- (split_join "." h), E, concat_app; [now rewrite split_join|exact N|rewrite Q; discriminate].
  - intros (pre & ->). exists (split "." pre). split; [|apply split_any]. destruct (split_cons "." pre) as (x & l & ->). discriminate.
Qed.
Lemma stands_for_names w c id : real_urls w ->
  name_matches w c id <-> exists h, hostname id = Some h /\ stands_for c h.
Proof.
  intros R. unfold name_matches, stands_for. rewrite R. split.
  - intros (h & H & [(d & -> & pre & E)|[A B]]); exists h; split; auto. left. exists d. split; [reflexivity|].
    apply below_suffix. eauto.
  - intros (h & H & [(d & -> & B)|[A B]]); exists h; split; auto. left. exists d. split; [reflexivity|].
    apply below_suffix in B. destruct B as [pre B]. eauto.
Qed.

Lemma lower_app a b : lower_case (a ++ b) = lower_case a ++ lower_case b.
Proof. induction a as [|c a IH]; [reflexivity|]. cbn. now rewrite IH. Qed.
Lemma lower_dot c : lower c = "."%char -> c = "."%char.
Proof. destruct c as [[] [] [] [] [] [] [] []]; vm_compute; congruence. Qed.
Lemma stands_for_any_case c h : stands_for c h -> named_by c h.
Proof.
  unfold named_by. intros [(d & -> & B)|[A ->]].
  - left. exists (lower_case d). split; [reflexivity|]. apply below_suffix in B. destruct B as [pre ->].
    apply below_suffix. exists (lower_case pre). now rewrite lower_app.
  - right. split; [|reflexivity]. intros d E. destruct c as [|x c]; [discriminate E|]. cbn [lower_case append] in E.
    injection E as E _. apply lower_dot in E. subst x. now apply (A c).
Qed.

Lemma chain_names w tas types start c low s co n x :
  real_urls w -> self_named w start -> returned w tas types start c -> subordinate c low s ->
  st_constraints s = Some co -> co_naming co = Some n -> In x (low ++ [s])%list ->
  (forall y h, In y (nc_excluded n) -> hostname (st_sub x) = Some h -> lower_case y = y -> lower_case h = h -> ~ named_by y h) /\
  (forall l, nc_permitted n = Some l -> exists y h, In y l /\ hostname (st_sub x) = Some h /\ named_by y h).
Proof.
  intros R S RT SB CO CN I. destruct (chain_naming w tas types start c low s co n x S RT SB CO CN I) as [A B]. split.
  - intros y h Y H L1 L2. unfold named_by. rewrite L1, L2. intros SF. apply (A y Y). apply stands_for_names; eauto.
  - intros l P. destruct (B l P) as (y & Y & M). apply stands_for_names in M; [|exact R]. destruct M as (h & H & SF).
    exists y, h. repeat split; auto. now apply stands_for_any_case.
Qed.

(** ** Requests *)
Lemma read_query_app a b : read_query (a ++ String "&" b) = (read_query a ++ read_query b)%list.
Proof. unfold read_query. now rewrite split_any, flat_map_app. Qed.
Lemma url_parts_any base q frag : free "?" base = true -> free "#" base = true -> free "#" q = true ->
  query_of (url_string (PUrl base q frag)) = q.
Proof.
  intros B1 B2 Q2. unfold url_string. cbn [pu_base pu_query pu_frag]. unfold query_of.
  assert (E : forall s, free "#" s = true -> fst (cut "#" (s ++ (if String.eqb frag "" then "" else "#" ++ frag))) = s).
  { intros s F. destruct (String.eqb_spec frag "") as [->|].
    - rewrite app_nil, cut_free by exact F. reflexivity.
    - change ("#" ++ frag) with (String "#" frag). now rewrite cut_app. }
  destruct (String.eqb_spec q "") as [->|].
  - cbn [append]. rewrite E by exact B2. now rewrite cut_free.
  - change ("?" ++ q) with (String "?" q). rewrite <- append_assoc. rewrite E by (rewrite free_app, B2; cbn [free]; exact Q2).
    now rewrite cut_app.
Qed.
Lemma cut_fst_free d s : free d (fst (cut d s)) = true.
Proof. destruct (cut_join d s) as [(a & b & -> & _ & F)|[-> F]]; exact F. Qed.
Lemma free_part d c s : free d s = true -> free d (fst (cut c s)) = true /\ free d (snd (cut c s)) = true.
Proof.
  intros H. destruct (cut_join c s) as [(a & b & E & -> & F)|[E F]]; rewrite E; cbn [fst snd]; [|auto].
  rewrite free_app in H. apply andb_prop in H. destruct H as [H1 H2]. cbn [free] in H2. apply andb_prop in H2. tauto.
Qed.

Lemma request_values canon endpoint params u k : keeps_base canon -> NoDup (keys params) ->
  request_url canon endpoint params = Some u ->
  url_values k u = (url_values k endpoint ++ match lookup k params with Some v => items v | None => [] end)%list.
Proof.
  unfold request_url, url_parse, url_values. intros K N.
  destruct (cut "#" endpoint) as [rest frag] eqn:C1. destruct (cut "?" rest) as [base q] eqn:C2.
  assert (QO : query_of endpoint = q) by (unfold query_of; now rewrite C1; cbn [fst]; rewrite C2).
  assert (FQ : free "#" q = true).
  { pose proof (cut_fst_free "#" endpoint) as F. rewrite C1 in F. cbn [fst] in F. destruct (free_part "#" "?" rest F) as [_ F2]. now rewrite C2 in F2. }
  destruct (canon base) as [b|] eqn:CB; [|discriminate]. destruct (K _ _ CB) as [K1 K2].
  apply cut_same_free in K1, K2. rewrite QO. destruct params as [|p ps].
  - intros [= <-]. rewrite url_parts_any by auto. cbn [lookup]. now rewrite app_nil_r.
  - set (m := p :: ps) in *. cbn [pu_base pu_query pu_frag]. intros [= <-].
    assert (FE : free "#" (encode m) = true) by (apply encode_free; auto).
    assert (FN : free "#" (if String.eqb q "" then encode m else q ++ "&" ++ encode m) = true).
    { destruct (String.eqb q ""); [exact FE|]. rewrite free_app, FQ. change ("&" ++ encode m) with (String "&" (encode m)). cbn [free]. exact FE. }
    rewrite url_parts_any by auto.
    destruct (String.eqb_spec q "") as [->|].
    + change (read_query "") with (@nil (string * string)). cbn [values_of filter map app]. now apply encode_spec.
    + change ("&" ++ encode m) with (String "&" (encode m)). rewrite read_query_app, values_of_app. f_equal. now apply encode_spec.
Qed.

Lemma base_parts base q frag : free "?" base = true -> free "#" base = true -> free "#" q = true ->
  base_of (url_string (PUrl base q frag)) = base /\ fragment_of (url_string (PUrl base q frag)) = frag.
Proof.
  intros B1 B2 Q2. unfold url_string. cbn [pu_base pu_query pu_frag]. unfold base_of, fragment_of.
  assert (E : forall s, free "#" s = true -> cut "#" (s ++ (if String.eqb frag "" then "" else "#" ++ frag)) = (s, frag)).
  { intros s F. destruct (String.eqb_spec frag "") as [->|].
    - rewrite app_nil, cut_free by exact F. reflexivity.
    - change ("#" ++ frag) with (String "#" frag). now rewrite cut_app. }
  destruct (String.eqb_spec q "") as [->|].
  - cbn [append]. rewrite E by exact B2. cbn [fst snd]. now rewrite cut_free.
  - change ("?" ++ q) with (String "?" q). rewrite <- append_assoc. rewrite E by (rewrite free_app, B2; cbn [free]; exact Q2).
    cbn [fst snd]. now rewrite cut_app.
Qed.
Lemma request_base canon endpoint params u : keeps_base canon -> request_url canon endpoint params = Some u ->
  canon (base_of endpoint) = Some (base_of u) /\ fragment_of u = fragment_of endpoint.
Proof.
  unfold request_url, url_parse. intros K.
  destruct (cut "#" endpoint) as [rest frag] eqn:C1. destruct (cut "?" rest) as [base q] eqn:C2.
  assert (BO : base_of endpoint = base /\ fragment_of endpoint = frag)
    by (unfold base_of, fragment_of; rewrite C1; cbn [fst snd]; now rewrite C2).
  assert (FQ : free "#" q = true).
  { pose proof (cut_fst_free "#" endpoint) as F. rewrite C1 in F. cbn [fst] in F. destruct (free_part "#" "?" rest F) as [_ F2]. now rewrite C2 in F2. }
  destruct BO as [-> ->]. destruct (canon base) as [b|] eqn:CB; [|discriminate]. destruct (K _ _ CB) as [K1 K2].
  apply cut_same_free in K1, K2. intros [= <-].
  assert (FN : free "#" (pu_query (match params with
                        | [] => PUrl b q frag
                        | _ => PUrl b (if String.eqb q "" then encode params else q ++ "&" ++ encode params) frag
                        end)) = true).
  { destruct params as [|p ps]; [exact FQ|]. cbn [pu_query]. assert (FE : free "#" (encode (p :: ps)) = true) by (apply encode_free; auto).
    destruct (String.eqb q ""); [exact FE|]. rewrite free_app, FQ. change ("&" ++ encode (p :: ps)) with (String "&" (encode (p :: ps))). cbn [free]. exact FE. }
  destruct params as [|p ps]; cbn [pu_query] in FN; cbn [pu_base pu_frag pu_query] in *;
    destruct (base_parts b _ frag K1 K2 FN) as [E1 E2]; split; [f_equal; symmetry; exact E1|exact E2|f_equal; symmetry; exact E1|exact E2].
Qed.

Lemma lookup_vadd k k' l (m : values) : ~ In k (keys m) ->
  match lookup k' (vadd_all k l m) with Some v => items v | None => [] end =
  if String.eqb k' k then l else match lookup k' m with Some v => items v | None => [] end.
Proof.
  intros N. unfold vadd_all. destruct l as [|x l].
  - destruct (String.eqb_spec k' k) as [->|]; [|reflexivity]. apply lookup_None in N. now rewrite N.
  - rewrite lookup_insert. now destruct (String.eqb k' k).
Qed.
Lemma vadd_NoDup k l (m : values) : NoDup (keys m) -> NoDup (keys (vadd_all k l m)).
Proof. intros N. unfold vadd_all. destruct l; [exact N|]. now apply keys_insert_NoDup. Qed.
Lemma vadd_keys k k' l (m : values) : k <> k' -> ~ In k' (keys m) -> ~ In k' (keys (vadd_all k l m)).
Proof.
  intros D N. unfold vadd_all. destruct l; [exact N|]. rewrite keys_insert_In. intros [H|H]; [congruence|tauto].
Qed.
Ltac notin := intros I; cbn [keys map fst] in I; repeat (destruct I as [I|I]; [discriminate I|]); destruct I.

Definition sends (params : values) (wants : string -> list string) : Prop :=
  NoDup (keys params) /\ forall k, match lookup k params with Some v => items v | None => [] end = wants k.
Lemma fetch_sends sub : sends (fetch_params sub) (fetch_wants sub).
Proof.
  split; [apply nodupb_ok; reflexivity|]. intros k. unfold fetch_params, fetch_wants. cbn [lookup].
  destruct (String.eqb k "sub"); reflexivity.
Qed.
Lemma mark_sends typ sub : sends (mark_params typ sub) (mark_wants typ sub).
Proof.
  split; [apply nodupb_ok; reflexivity|]. intros k. unfold mark_params, mark_wants. cbn [lookup].
  destruct (String.eqb k "trust_mark_type"); [reflexivity|]. destruct (String.eqb k "sub"); reflexivity.
Qed.
Lemma resolve_sends r : sends (resolve_params r) (resolve_wants r).
Proof.
  unfold resolve_params. split.
  - apply vadd_NoDup, vadd_NoDup, nodupb_ok. reflexivity.
  - intros k. rewrite lookup_vadd by (apply vadd_keys; [discriminate|notin]). rewrite lookup_vadd by notin.
    unfold resolve_wants. cbn [lookup].
    destruct (String.eqb_spec k "entity_type") as [->|]; [reflexivity|].
    destruct (String.eqb_spec k "trust_anchor") as [->|]; [reflexivity|].
    destruct (String.eqb_spec k "sub") as [->|]; reflexivity.
Qed.
Lemma collection_sends r : NoDup (keys (collection_params r)) /\
  (forall k, k <> "name_query" -> k <> "NameQuery" ->
     match lookup k (collection_params r) with Some v => items v | None => [] end = collection_wants r k) /\
  match lookup "name_query" (collection_params r) with Some v => items v | None => [] end = [] /\
  match lookup "NameQuery" (collection_params r) with Some v => items v | None => [] end = [cr_name r].
Proof.
  unfold collection_params. split; [apply vadd_NoDup, vadd_NoDup, vadd_NoDup, nodupb_ok; reflexivity|].
  assert (L : forall k, match lookup k (vadd_all "claims" (cr_claims r) (vadd_all "entity_type" (cr_types r) (vadd_all "trust_mark_type" (cr_mark_types r)
    [("NameQuery", Some [cr_name r]); ("trust_anchor", Some [cr_anchor r]); ("limit", Some [cr_limit r]);
     ("from_entity_id", Some [cr_from r])]))) with Some v => items v | None => [] end =
     if String.eqb k "claims" then cr_claims r else if String.eqb k "entity_type" then cr_types r
     else if String.eqb k "trust_mark_type" then cr_mark_types r
     else if String.eqb k "NameQuery" then [cr_name r] else if String.eqb k "trust_anchor" then [cr_anchor r]
     else if String.eqb k "limit" then [cr_limit r] else if String.eqb k "from_entity_id" then [cr_from r] else []).
  { intros k. rewrite lookup_vadd by (apply vadd_keys; [discriminate|apply vadd_keys; [discriminate|notin]]).
    rewrite lookup_vadd by (apply vadd_keys; [discriminate|notin]). rewrite lookup_vadd by notin. cbn [lookup].
    repeat (destruct (String.eqb k _); [reflexivity|]). reflexivity. }
  repeat split; try (rewrite L; reflexivity).
  intros k N1 N2. rewrite L. unfold collection_wants.
  destruct (String.eqb_spec k "NameQuery"); [contradiction|]. destruct (String.eqb_spec k "name_query"); [contradiction|].
  destruct (String.eqb_spec k "claims") as [->|]; [reflexivity|].
  destruct (String.eqb_spec k "entity_type") as [->|]; [reflexivity|].
  destruct (String.eqb_spec k "trust_mark_type") as [->|]; [reflexivity|].
  destruct (String.eqb_spec k "trust_anchor") as [->|]; [reflexivity|].
  destruct (String.eqb_spec k "limit") as [->|]; [reflexivity|].
  destruct (String.eqb_spec k "from_entity_id") as [->|]; reflexivity.
Qed.

Lemma request_adds canon endpoint params wants u : keeps_base canon -> sends params wants ->
  request_url canon endpoint params = Some u -> forall k, url_values k u = (url_values k endpoint ++ wants k)%list.
Proof. intros K [N W] H k. rewrite (request_values canon endpoint params u k K N H). now rewrite W. Qed.
Lemma request_asks canon endpoint params wants u : keeps_base canon -> plain_endpoint endpoint -> sends params wants ->
  request_url canon endpoint params = Some u -> asks_for u wants.
Proof. intros K P S H k. rewrite (request_adds _ _ _ _ _ K S H k). now rewrite P. Qed.
Lemma fetch_asks canon endpoint sub u : keeps_base canon -> plain_endpoint endpoint ->
  request_url canon endpoint (fetch_params sub) = Some u -> asks_for u (fetch_wants sub).
Proof. intros K P. apply request_asks; auto. apply fetch_sends. Qed.
Lemma mark_asks canon endpoint typ sub u : keeps_base canon -> plain_endpoint endpoint ->
  request_url canon endpoint (mark_params typ sub) = Some u -> asks_for u (mark_wants typ sub).
Proof. intros K P. apply request_asks; auto. apply mark_sends. Qed.
Lemma resolve_asks canon endpoint r u : keeps_base canon -> plain_endpoint endpoint ->
  request_url canon endpoint (resolve_params r) = Some u -> asks_for u (resolve_wants r).
Proof. intros K P. apply request_asks; auto. apply resolve_sends. Qed.
Lemma collection_asks canon endpoint r u k : keeps_base canon -> plain_endpoint endpoint ->
  request_url canon endpoint (collection_params r) = Some u -> k <> "name_query" -> k <> "NameQuery" ->
  url_values k u = collection_wants r k.
Proof.
  intros K P H N1 N2. destruct (collection_sends r) as (N & W & _). rewrite (request_values _ _ _ _ k K N H), P. now apply W.
Qed.
Lemma collection_drops canon endpoint r u : keeps_base canon -> plain_endpoint endpoint ->
  request_url canon endpoint (collection_params r) = Some u -> url_values "name_query" u = [].
Proof.
  intros K P H. destruct (collection_sends r) as (N & _ & W & _). now rewrite (request_values _ _ _ _ "name_query" K N H), P, W.
Qed.
Lemma request_extends canon endpoint params u k : keeps_base canon -> NoDup (keys params) ->
  request_url canon endpoint params = Some u -> exists l, url_values k u = (url_values k endpoint ++ l)%list.
Proof. intros K N H. eexists. apply (request_values _ _ _ _ _ K N H). Qed.

(** ** Replies *)
Lemma document_exact {D} err_of (parse : string -> res D) r d :
  http_document err_of parse r = Ok d <->
  exists status is_json body, r = HReply status is_json body /\ parse body = Ok d /\
    (400 <= status -> is_json = true -> err_of body = "").
Proof.
  unfold http_document, http_get. split.
  - destruct r as [|s j b]; [discriminate|].
    destruct (Nat.leb 400 s && j && negb (String.eqb (err_of b) "")) eqn:E; [discriminate|]. cbn [bind]. intros H.
    exists s, j, b. repeat split; auto. intros L ->. apply Nat.leb_le in L. rewrite L in E. cbn [andb] in E.
    apply Bool.negb_false_iff in E. now apply String.eqb_eq.
  - intros (s & j & b & -> & P & C). destruct (Nat.leb 400 s && j && negb (String.eqb (err_of b) "")) eqn:E; [exfalso|exact P].
    apply andb_prop in E. destruct E as [E1 E2]. apply andb_prop in E1. destruct E1 as [E1 ->]. apply Nat.leb_le in E1.
    rewrite (C E1 eq_refl) in E2. discriminate.
Qed.
Lemma document_any_status {D} err_of (parse : string -> res D) status body d :
  parse body = Ok d -> http_document err_of parse (HReply status false body) = Ok d.
Proof. intros P. apply document_exact. exists status, false, body. repeat split; auto. discriminate. Qed.
