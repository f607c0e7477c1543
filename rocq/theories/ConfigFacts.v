From Coq Require Import QArith Qround Lia.
From Verif Require Import Base BaseFacts GoVal Policy Schema Metadata Chain FloatTime FloatFacts Json SpecJson JsonFacts
  TrustMark SpecTrustMark SpecTime TrustMarkFacts TrustMarkLaws Refresher Config SpecConfig.
Local Open Scope nat_scope.
Local Open Scope string_scope.

(** ** Generic *)

Lemma distinct_ok l : distinct l = true <-> NoDup l.
Proof.
  induction l as [|x r IH]; cbn; [split; [constructor|reflexivity]|].
  rewrite Bool.andb_true_iff, IH, Bool.negb_true_iff. split.
  - intros [M N]. constructor; [apply mem_nIn in M; exact M | exact N].
  - intros N. inversion N; subst. split; [apply mem_nIn; assumption | assumption].
Qed.

Lemma to_json_to_yaml show j : to_json (to_yaml show j) = j.
Proof.
  revert j. fix IH 1. intros [| b | q | s | l | o]; cbn; try reflexivity.
  - f_equal. induction l as [|x l IHl]; cbn; [reflexivity|]. rewrite IH, IHl. reflexivity.
  - f_equal. induction o as [|[k x] o IHo]; cbn; [reflexivity|]. rewrite IH, IHo. reflexivity.
Qed.

(** ** Key sets *)

Lemma keys_json {K} (kc : keycodec K) k : keeps kc k -> kc_len kc k <> 0 -> dec_keys kc (enc_keys kc (Some k)) = Ok (Some k).
Proof.
  intros [D [o [E _]]] L. cbn. rewrite E in *. cbn. rewrite D.
  destruct (Nat.eqb_spec (kc_len kc k) 0); [contradiction|reflexivity].
Qed.

Lemma keys_yaml {K} (kc : keycodec K) show old k : keeps kc k -> kc_len kc k <> 0 ->
  dec_keys_yaml kc old (enc_keys_yaml show kc (Some k)) = Ok (Some k).
Proof.
  intros [D [o [E U]]] L. pose proof (U show) as Us. unfold enc_keys_yaml. cbn [enc_keys]. rewrite E in *.
  unfold dec_keys_yaml. cbn [to_yaml] in *. rewrite Us.
  change (YMap (map (fun kv => (fst kv, to_yaml show (snd kv))) o)) with (to_yaml show (JObj o)).
  rewrite to_json_to_yaml. cbn. rewrite D.
  destruct (Nat.eqb_spec (kc_len kc k) 0); [contradiction|reflexivity].
Qed.

Lemma keys_nonempty {K} (kc : keycodec K) j k : dec_keys kc j = Ok (Some k) -> kc_len kc k <> 0 /\ kc_dec kc j = Some k.
Proof.
  intros H. assert (G : match kc_dec kc j with None => Err | Some k' => Ok (if Nat.eqb (kc_len kc k') 0 then None else Some k') end = Ok (Some k)).
  { destruct j; cbn in H; try discriminate; exact H. }
  destruct (kc_dec kc j) as [k'|]; [|discriminate].
  destruct (Nat.eqb_spec (kc_len kc k') 0) as [E|E]; [discriminate|]. injection G as <-. split; [exact E|reflexivity].
Qed.

Lemma keys_empty {K} (kc : keycodec K) k : keeps kc k -> kc_len kc k = 0 ->
  dec_keys kc (enc_keys kc (Some k)) = Ok None /\ len_of kc (@None K) = Panic.
Proof.
  intros [D [o [E _]]] L. split; [|reflexivity]. cbn. rewrite E in *. cbn. rewrite D, L. reflexivity.
Qed.

(** ** TrustMarkSpec *)

Lemma enc_yduration_num show d : exists f, enc_yduration show d = YNum f (show f) /\ f = encode_duration d.
Proof. exists (encode_duration d). split; reflexivity. Qed.

Lemma yspec_member_skip k y s : ~ In k yspec_tags -> yspec_member k y s = Ok s.
Proof.
  intros N. unfold yspec_member.
  repeat match goal with |- context [String.eqb k ?t] => destruct (String.eqb_spec k t) as [E|_]; [exfalso; apply N; rewrite E; cbn; tauto|] end.
  reflexivity.
Qed.

Lemma yspec_members_skip x : forall s, (forall k, In k (keys x) -> ~ In k yspec_tags) -> yspec_members x s = Ok s.
Proof.
  induction x as [|[k y] x IH]; intros s N; cbn [yspec_members]; [reflexivity|].
  rewrite yspec_member_skip; [|apply N; left; reflexivity]. cbn [bind]. apply IH. intros k' H. apply N. right. exact H.
Qed.

Lemma fold_insert_app {A} (x : smap A) : forall a, NoDup (keys x) -> (forall k, In k (keys x) -> ~ In k (keys a)) ->
  fold_left (fun m kv => insert (fst kv) (snd kv) m) x a = (a ++ x)%list.
Proof.
  induction x as [|[k v] x IH]; intros a N D; cbn [fold_left fst snd]; [rewrite app_nil_r; reflexivity|].
  assert (I : insert k v a = (a ++ [(k, v)])%list).
  { assert (Na : ~ In k (keys a)) by (apply D; left; reflexivity).
    clear - Na. induction a as [|[k' v'] a IH]; cbn; [reflexivity|].
    destruct (String.eqb_spec k k') as [->|]; [exfalso; apply Na; left; reflexivity|].
    rewrite IH; [reflexivity|]. intros H. apply Na. right. exact H. }
  inversion N as [|? ? Nk Nx]; subst. rewrite I, IH; [rewrite <- app_assoc; reflexivity|exact Nx|].
  intros k' Hk' Ha. unfold keys in Ha. rewrite map_app, in_app_iff in Ha. destruct Ha as [Ha|[<-|[]]].
  - exact (D k' (or_intror Hk') Ha).
  - contradiction.
Qed.

Lemma yspec_members_app a : forall b s, yspec_members (a ++ b)%list s = (s' <- yspec_members a s ;; yspec_members b s').
Proof.
  induction a as [|[k y] a IH]; intros b s; cbn; [reflexivity|].
  destruct (yspec_member k y s); cbn; [apply IH|reflexivity|reflexivity].
Qed.

Theorem yspec_roundtrip show s l :
  ys_lifetime s = seconds l -> (Z.abs l <= 4611686018)%Z -> additional (ys_extra s) ->
  read_spec (marshal_yspec show s) s.
Proof.
  intros L B [N [U D]]. unfold read_spec, marshal_yspec.
  destruct s as [t d r lo i de x]. cbn [ys_lifetime ys_extra ys_type ys_ref ys_logo ys_include ys_deleg] in *.
  set (fs := [("trust_mark_type", YStr t); ("lifetime", enc_yduration show d); ("ref", YStr r);
     ("logo_uri", YStr lo); ("include_extra_claims_in_info", YBool i (show_bool i)); ("delegation_jwt", YStr de)]).
  assert (KF : keys fs = spec_names) by reflexivity.
  rewrite fold_insert_app; [|exact N|rewrite KF; exact D].
  unfold unmarshal_yspec.
  assert (UU : unique (YMap (fs ++ x)%list) = true).
  { cbn [unique]. rewrite Bool.andb_true_iff. split.
    - apply distinct_ok. unfold keys. rewrite map_app. apply NoDup_app_intro.
      + change (map fst fs) with spec_names. apply nodupb_ok. vm_compute. reflexivity.
      + exact N.
      + intros k Hk Hx. exact (D k Hx Hk).
    - rewrite forallb_app, Bool.andb_true_iff. split; [reflexivity|].
      apply forallb_forall. intros kv Hkv. rewrite Forall_forall in U. apply U. exact Hkv. }
  rewrite UU, yspec_members_app.
  assert (Dd : yduration 0 (enc_yduration show d) = Ok d).
  { unfold enc_yduration, yduration, yfloat. cbn [bind]. f_equal.
    change (json_duration d = d). rewrite L. apply duration_roundtrip. exact B. }
  assert (M : yspec_members fs zero_yspec = Ok (YSpec t d r lo i de [])).
  { unfold fs, zero_yspec. cbn [yspec_members]. unfold yspec_member.
    cbn [String.eqb Ascii.eqb Bool.eqb ys_type ys_lifetime ys_ref ys_logo ys_include ys_deleg ys_extra bind ystr].
    rewrite Dd. reflexivity. }
  rewrite M. cbn [bind]. rewrite yspec_members_skip; [|exact D]. cbn [bind ys_type ys_lifetime ys_ref ys_logo ys_include ys_deleg].
  f_equal. f_equal. rewrite filter_app.
  assert (F1 : filter (fun kv => negb (mem (fst kv) yspec_tags)) fs = []) by reflexivity.
  rewrite F1. cbn [app].
  clear - D. induction x as [|[k y] x IH]; [reflexivity|]. cbn [filter fst].
  assert (E : mem k yspec_tags = false) by (apply mem_nIn; apply D; left; reflexivity).
  rewrite E. cbn [negb]. rewrite IH; [reflexivity|]. intros k' H. apply D. right. exact H.
Qed.

(** What the members of a document do to one field. *)
Lemma members_other (f : yspec -> yspec -> Prop) o : forall s s',
  (forall k y a b, In (k, y) o -> yspec_member k y a = Ok b -> f a b) -> (forall a, f a a) -> (forall a b c, f a b -> f b c -> f a c) ->
  yspec_members o s = Ok s' -> f s s'.
Proof.
  induction o as [|[k y] o IH]; intros s s' H R T E; cbn in E; [injection E as <-; apply R|].
  apply bind_ok in E as [s1 [E1 E2]]. apply T with s1; [apply H with k y; [left; reflexivity|exact E1]|].
  apply IH; try assumption. intros. apply H with k0 y0; [right; assumption|assumption].
Qed.

Ltac member_cases k :=
  unfold yspec_member in *;
  repeat match goal with
  | H : context [String.eqb k ?t] |- _ => destruct (String.eqb_spec k t); [subst|]
  end.

Lemma member_text t k y a b : yspec_member k y a = Ok b -> k <> t ->
  (t = "trust_mark_type" -> ys_type b = ys_type a) /\ (t = "lifetime" -> ys_lifetime b = ys_lifetime a) /\
  (t = "ref" -> ys_ref b = ys_ref a) /\ (t = "logo_uri" -> ys_logo b = ys_logo a) /\
  (t = "include_extra_claims_in_info" -> ys_include b = ys_include a) /\ (t = "delegation_jwt" -> ys_deleg b = ys_deleg a).
Proof.
  intros H N. unfold yspec_member in H.
  repeat match goal with
  | H : context [String.eqb k ?t'] |- _ =>
      destruct (String.eqb_spec k t') as [->|];
      [apply bind_ok in H as [v [_ E]]; injection E as <-; cbn;
       repeat split; intros ->; try reflexivity; contradiction N; reflexivity|]
  end.
  injection H as <-. repeat split; reflexivity.
Qed.

(** The members before and after the one with a given name. *)
Lemma members_split t (o : list (string * yaml)) y s s' : NoDup (keys o) -> lookup t o = Some y -> yspec_members o s = Ok s' ->
  exists a b o1 o2, ~ In t (keys o1) /\ ~ In t (keys o2) /\ yspec_members o1 s = Ok a /\ yspec_member t y a = Ok b /\
    yspec_members o2 b = Ok s'.
Proof.
  intros N L E. apply lookup_In in L. apply in_split in L as [o1 [o2 ->]].
  rewrite yspec_members_app in E. apply bind_ok in E as [a [E1 E2]]. cbn in E2. apply bind_ok in E2 as [b [E2 E3]].
  unfold keys in N. rewrite map_app in N. cbn in N. apply NoDup_remove in N as [_ N]. rewrite in_app_iff in N.
  exists a, b, o1, o2. repeat split; try assumption; intros H; apply N; [left|right]; exact H.
Qed.

Lemma members_keep t o s s' : ~ In t (keys o) -> yspec_members o s = Ok s' ->
  (t = "trust_mark_type" -> ys_type s' = ys_type s) /\ (t = "lifetime" -> ys_lifetime s' = ys_lifetime s) /\
  (t = "ref" -> ys_ref s' = ys_ref s) /\ (t = "logo_uri" -> ys_logo s' = ys_logo s) /\
  (t = "include_extra_claims_in_info" -> ys_include s' = ys_include s) /\ (t = "delegation_jwt" -> ys_deleg s' = ys_deleg s).
Proof.
  intros N E.
  refine (members_other (fun a b => (t = "trust_mark_type" -> ys_type b = ys_type a) /\ (t = "lifetime" -> ys_lifetime b = ys_lifetime a) /\
  (t = "ref" -> ys_ref b = ys_ref a) /\ (t = "logo_uri" -> ys_logo b = ys_logo a) /\
  (t = "include_extra_claims_in_info" -> ys_include b = ys_include a) /\ (t = "delegation_jwt" -> ys_deleg b = ys_deleg a)) o s s' _ _ _ E).
  - intros k y a b I M. apply member_text with k y; [exact M|]. intros ->. apply N. apply (in_map fst) in I. exact I.
  - intros a. repeat split; reflexivity.
  - intros a b c (A1&A2&A3&A4&A5&A6) (B1&B2&B3&B4&B5&B6).
    repeat split; intros Q; [rewrite B1, A1 | rewrite B2, A2 | rewrite B3, A3 | rewrite B4, A4 | rewrite B5, A5 | rewrite B6, A6]; auto.
Qed.

Lemma ystr_text old y v : ystr old y = Ok v -> old = "" -> text_of (Some y) = Some v.
Proof. intros H ->. destruct y; cbn in *; try discriminate; injection H as <-; reflexivity. Qed.

Lemma read_map doc s : read_spec doc s -> doc = YNull /\ s = zero_yspec \/
  exists o s', doc = YMap o /\ NoDup (keys o) /\ Forall (fun kv => unique (snd kv) = true) o /\ yspec_members o zero_yspec = Ok s' /\
    s = YSpec (ys_type s') (ys_lifetime s') (ys_ref s') (ys_logo s') (ys_include s') (ys_deleg s')
              (filter (fun kv => negb (mem (fst kv) yspec_tags)) o).
Proof.
  unfold read_spec, unmarshal_yspec. destruct doc as [| | | | |o]; try discriminate.
  - intros H. injection H as <-. left. split; reflexivity.
  - intros H. right. destruct (unique (YMap o)) eqn:U; [|discriminate]. apply bind_ok in H as [s' [E H]]. injection H as <-.
    cbn in U. rewrite Bool.andb_true_iff in U. destruct U as [U1 U2].
    exists o, s'. repeat split; [apply distinct_ok; exact U1| |exact E].
    apply Forall_forall. rewrite forallb_forall in U2. exact U2.
Qed.

(** The four string fields. *)
Lemma read_text doc s : read_spec doc s ->
  text_of (member "trust_mark_type" doc) = Some (ys_type s) /\ text_of (member "ref" doc) = Some (ys_ref s) /\
  text_of (member "logo_uri" doc) = Some (ys_logo s) /\ text_of (member "delegation_jwt" doc) = Some (ys_deleg s).
Proof.
  intros R. apply read_map in R as [[-> ->]|[o [s' [-> [N [_ [E ->]]]]]]]; [repeat split|].
  cbn [member ys_type ys_ref ys_logo ys_deleg].
  assert (G : forall t (g : yspec -> string),
    (forall a, t = "trust_mark_type" /\ g a = ys_type a \/ t = "ref" /\ g a = ys_ref a \/ t = "logo_uri" /\ g a = ys_logo a \/
               t = "delegation_jwt" /\ g a = ys_deleg a) ->
    (forall a b y, yspec_member t y a = Ok b -> ystr (g a) y = Ok (g b)) -> g zero_yspec = "" ->
    text_of (lookup t o) = Some (g s')).
  { intros t g Hg Hm Hz.
    assert (K : forall p q x, ~ In t (keys x) -> yspec_members x p = Ok q -> g q = g p).
    { intros p q x Nx Ex. destruct (members_keep t x p q Nx Ex) as (A1&_&A3&A4&_&A6).
      destruct (Hg p) as [[T1 G1]|[[T1 G1]|[[T1 G1]|[T1 G1]]]];
      destruct (Hg q) as [[T2 G2]|[[T2 G2]|[[T2 G2]|[T2 G2]]]]; try congruence; rewrite G1, G2; auto. }
    destruct (lookup t o) as [y|] eqn:L.
    - destruct (members_split t o y _ _ N L E) as [a [b [o1 [o2 [N1 [N2 [E1 [E2 E3]]]]]]]].
      apply ystr_text with (old := g a); [|rewrite (K _ _ _ N1 E1); exact Hz].
      rewrite (K _ _ _ N2 E3). apply Hm. exact E2.
    - cbn. f_equal. symmetry. rewrite (K zero_yspec s' o); [exact Hz| |exact E]. apply lookup_None. exact L. }
  repeat split.
  - apply G; [intros a; left; split; reflexivity| |reflexivity]. intros a b y H. cbn in H. apply bind_ok in H as [v [H1 H2]]. injection H2 as <-. exact H1.
  - apply G; [intros a; right; left; split; reflexivity| |reflexivity]. intros a b y H. cbn in H. apply bind_ok in H as [v [H1 H2]]. injection H2 as <-. exact H1.
  - apply G; [intros a; right; right; left; split; reflexivity| |reflexivity]. intros a b y H. cbn in H. apply bind_ok in H as [v [H1 H2]]. injection H2 as <-. exact H1.
  - apply G; [intros a; right; right; right; split; reflexivity| |reflexivity]. intros a b y H. cbn in H. apply bind_ok in H as [v [H1 H2]]. injection H2 as <-. exact H1.
Qed.

Lemma read_lifetime doc s : read_spec doc s ->
  match member "lifetime" doc with
  | Some (YNum q _) => ys_lifetime s = decode_duration q
  | Some YNull => ys_lifetime s = 0%Z
  | Some _ => False
  | None => ys_lifetime s = 0%Z
  end.
Proof.
  intros R. apply read_map in R as [[-> ->]|[o [s' [-> [N [_ [E ->]]]]]]]; [reflexivity|].
  cbn [member ys_lifetime].
  destruct (lookup "lifetime" o) as [y|] eqn:L.
  - destruct (members_split _ o y _ _ N L E) as [a [b [o1 [o2 [N1 [N2 [E1 [E2 E3]]]]]]]].
    destruct (members_keep _ o1 _ _ N1 E1) as (_&A&_). destruct (members_keep _ o2 _ _ N2 E3) as (_&B&_).
    rewrite (B eq_refl). specialize (A eq_refl). cbn in E2. apply bind_ok in E2 as [v [H1 H2]]. injection H2 as <-. cbn [ys_lifetime].
    destruct y; cbn in H1; try discriminate; injection H1 as <-; [exact A|reflexivity].
  - destruct (members_keep "lifetime" o zero_yspec s') as (_&A&_); [apply lookup_None; exact L|exact E|]. exact (A eq_refl).
Qed.

Lemma lookup_filter_neg (o : smap yaml) p k : p k = true -> lookup k (filter (fun kv => p (fst kv)) o) = lookup k o.
Proof.
  intros P. induction o as [|[k' v] o IH]; [reflexivity|]. cbn [filter fst].
  destruct (p k') eqn:Pk; cbn; [rewrite IH; reflexivity|].
  destruct (String.eqb_spec k k') as [->|]; [congruence|exact IH].
Qed.
Lemma lookup_filter_no (o : smap yaml) p k : p k = false -> lookup k (filter (fun kv => p (fst kv)) o) = None.
Proof.
  intros P. induction o as [|[k' v] o IH]; [reflexivity|]. cbn [filter fst].
  destruct (p k') eqn:Pk; cbn; [|exact IH].
  destruct (String.eqb_spec k k') as [->|]; [congruence|exact IH].
Qed.

Lemma read_extra doc s k : read_spec doc s -> lookup k (ys_extra s) = (if mem k spec_names then None else member k doc).
Proof.
  intros R. apply read_map in R as [[-> ->]|[o [s' [-> [N [_ [E ->]]]]]]]; [destruct (mem k spec_names); reflexivity|].
  cbn [ys_extra member]. change yspec_tags with spec_names.
  destruct (mem k spec_names) eqn:M.
  - rewrite (lookup_filter_no o (fun k => negb (mem k spec_names))); [reflexivity|]. rewrite M. reflexivity.
  - rewrite (lookup_filter_neg o (fun k => negb (mem k spec_names))); [reflexivity|]. rewrite M. reflexivity.
Qed.

Lemma read_include doc s : read_spec doc s ->
  match member "include_extra_claims_in_info" doc with
  | Some (YBool b _) => ys_include s = b
  | Some (YStr t) => ys_include s = true /\ In t ["y"; "Y"; "yes"; "on"] \/ ys_include s = false /\ In t ["n"; "N"; "no"; "off"]
  | Some YNull | None => ys_include s = false
  | Some _ => False
  end.
Proof.
  intros R. apply read_map in R as [[-> ->]|[o [s' [-> [N [_ [E ->]]]]]]]; [reflexivity|].
  cbn [member ys_include].
  destruct (lookup "include_extra_claims_in_info" o) as [y|] eqn:L.
  - destruct (members_split _ o y _ _ N L E) as [a [b [o1 [o2 [N1 [N2 [E1 [E2 E3]]]]]]]].
    destruct (members_keep _ o1 _ _ N1 E1) as (_&_&_&_&A&_). destruct (members_keep _ o2 _ _ N2 E3) as (_&_&_&_&B&_).
    rewrite (B eq_refl). specialize (A eq_refl). cbn in E2. apply bind_ok in E2 as [v [H1 H2]]. injection H2 as <-. cbn [ys_include].
    destruct y as [|bb t|q t|t|l|oo]; unfold ybool in H1; try discriminate; try (injection H1 as <-; first [exact A|reflexivity]).
    destruct (mem t ["y"; "Y"; "yes"; "on"]) eqn:M1; [injection H1 as <-; left; split; [reflexivity|apply mem_In; exact M1]|].
    destruct (mem t ["n"; "N"; "no"; "off"]) eqn:M2; [injection H1 as <-; right; split; [reflexivity|apply mem_In; exact M2]|discriminate].
  - destruct (members_keep "include_extra_claims_in_info" o zero_yspec s') as (_&_&_&_&A&_); [apply lookup_None; exact L|exact E|]. exact (A eq_refl).
Qed.

(** ** Lifetimes *)

Lemma Qfloor_whole q n : q == inject_Z n -> Qfloor q = n.
Proof. intros E. rewrite (Qfloor_comp _ _ E). apply Qfloor_Z. Qed.

Theorem configured_lifetime doc s q txt sign ent now sub t :
  read_spec doc s -> member "lifetime" doc = Some (YNum q txt) -> (1 <= q)%Q -> (q < inject_Z 9223372037)%Q ->
  issue_mark sign ent (new_issuer [spec_of s]) now (ys_type s) sub None = Ok t ->
  exists m, ti_mark t = Some m /\ mk_exp m = Some (now + seconds (Qfloor q))%Z.
Proof.
  intros R M L1 L2 I. pose proof (read_lifetime doc s R) as L. rewrite M in L.
  assert (D : ys_lifetime s = seconds (Qfloor q)).
  { rewrite L. unfold decode_duration, trunc, seconds.
    assert (Z0 : Qle_bool 0 q = true). { apply Qle_bool_iff. apply Qle_trans with 1%Q; [discriminate|exact L1]. }
    rewrite Z0. apply wrap64_id.
    assert (A : (1 <= Qfloor q)%Z). { change 1%Z with (Qfloor 1%Q). apply Qfloor_resp_le. exact L1. }
    assert (B : (Qfloor q < 9223372037)%Z).
    { rewrite Zlt_Qlt. apply Qle_lt_trans with q; [apply Qfloor_le|exact L2]. }
    change (2 ^ 63)%Z with 9223372036854775808%Z. lia. }
  unfold issue_mark in I.
  assert (Lk : lookup (ys_type s) (new_issuer [spec_of s]) = Some (spec_of s)).
  { unfold new_issuer. cbn. rewrite String.eqb_refl. reflexivity. }
  rewrite Lk in I. apply bind_ok in I as [jwt [_ I]]. injection I as <-. cbn [ti_mark].
  eexists. split; [reflexivity|]. cbn [mk_exp]. cbn [spec_of ms_lifetime]. rewrite D.
  assert (A : (1 <= Qfloor q)%Z). { change 1%Z with (Qfloor 1%Q). apply Qfloor_resp_le. exact L1. }
  destruct (Z.eqb_spec (seconds (Qfloor q)) 0) as [E|E]; [unfold seconds in E; lia|reflexivity].
Qed.

Theorem configured_lifetime_whole doc s q n txt sign ent now sub t :
  read_spec doc s -> member "lifetime" doc = Some (YNum q txt) -> q == inject_Z n -> (1 <= n <= 9223372036)%Z ->
  issue_mark sign ent (new_issuer [spec_of s]) now (ys_type s) sub None = Ok t ->
  exists m, ti_mark t = Some m /\ mk_exp m = Some (now + seconds n)%Z.
Proof.
  intros R M E B I. rewrite <- (Qfloor_whole q n E).
  apply (configured_lifetime doc s q txt sign ent now sub t R M); [| |exact I].
  - rewrite E. change 1%Q with (inject_Z 1). rewrite <- Zle_Qle. lia.
  - rewrite E. rewrite <- Zlt_Qlt. lia.
Qed.

(** ** Verified configurations *)

Lemma shared_verify parse sub ep sign c :
  (c' <- verify_mconfig parse sub ep sign c ;; Ok (shared c')) = verify_config parse (shared c).
Proof.
  destruct c as [t i se sp j r mn gr x tr su en ow]. unfold verify_mconfig, verify_config, shared.
  cbn [mc_type mc_issuer mc_self mc_spec mc_jwt mc_refresh mc_min mc_grace mc_exp mc_tried mc_own cf_type cf_issuer cf_self cf_jwt cf_refresh cf_min cf_grace cf_exp cf_tried].
  destruct (negb (String.eqb j "")).
  - destruct (parse j) as [[[ex is] [ty|]]|]; reflexivity.
  - destruct se; [destruct (String.eqb t ""); reflexivity|].
    destruct (String.eqb t "" || String.eqb i "")%bool; reflexivity.
Qed.

(** What stays the same while a configuration is used. *)
Lemma used_same c c' : used c c' -> mc_self c' = mc_self c /\ mc_own c' = mc_own c /\ mc_type c' = mc_type c /\
  mc_sub c' = mc_sub c /\ mc_issuer c' = mc_issuer c /\ mc_endpoint c' = mc_endpoint c /\ mc_refresh c' = mc_refresh c.
Proof.
  induction 1 as [|c' e ask now U (I1&I2&I3&I4&I5&I6&I7)]; [repeat split|].
  assert (S : mc_self (snd (mark_jwt e ask now c')) = mc_self c' /\ mc_own (snd (mark_jwt e ask now c')) = mc_own c' /\
    mc_type (snd (mark_jwt e ask now c')) = mc_type c' /\ mc_sub (snd (mark_jwt e ask now c')) = mc_sub c' /\
    mc_issuer (snd (mark_jwt e ask now c')) = mc_issuer c' /\ mc_endpoint (snd (mark_jwt e ask now c')) = mc_endpoint c' /\
    mc_refresh (snd (mark_jwt e ask now c')) = mc_refresh c').
  { unfold mark_jwt. destruct (negb (mc_refresh c')); [repeat split|].
    destruct (negb (String.eqb (mc_jwt c') "") && Z.ltb (mc_min c') (until (mc_exp c') now))%bool; [repeat split|].
    destruct (Z.ltb (since (mc_tried c') now) minute); [repeat split|].
    destruct (obtain e ask now c') as [[j x]| |]; repeat split. }
  destruct S as (S1&S2&S3&S4&S5&S6&S7). repeat split; congruence.
Qed.

Lemma sign_mark_no_panic sign m : sign_mark sign m <> Panic.
Proof. unfold sign_mark. destruct (sign typ_mark (marshal mark_fields (mark_values m) (mk_extra m))); discriminate. Qed.

Theorem obtain_panics e ask now c : obtain e ask now c = Panic ->
  mc_self c = true /\ forall o, mc_own c = Some o -> is_sign o = None.
Proof.
  unfold obtain. destruct (mc_self c).
  - intros H. split; [reflexivity|]. intros o Ho. rewrite Ho in H. destruct (is_sign o) as [sign|]; [|reflexivity]. exfalso.
    unfold issue_mark in H. destruct (lookup (mc_type c) (is_specs o)); [|discriminate].
    destruct (sign_mark sign _) eqn:S; [discriminate|discriminate|]. exact (sign_mark_no_panic _ _ S).
  - intros H. exfalso.
    assert (G : forall ep, match ask ep (mc_type c) (mc_sub c) with RFail => Err | RBody body =>
        m <- parse_mark e body ;; Ok (body, match mk_exp m with Some x => x | None => zero_time end) end <> Panic).
    { intros ep. destruct (ask ep (mc_type c) (mc_sub c)); [discriminate|].
      pose proof (parse_mark_no_panic e body) as N. destruct (parse_mark e body); cbn; [discriminate|discriminate|contradiction]. }
    destruct (String.eqb (mc_issuer c) (mc_sub c)); [exact (G _ H)|].
    destruct (te_config e [] (mc_issuer c)) as [ec|]; [|discriminate].
    destruct (String.eqb (mark_endpoint ec) ""); [discriminate|exact (G _ H)].
Qed.

Theorem verified_usable parse sub ep sign c c1 c2 e ask now :
  verify_mconfig parse sub ep sign c = Ok c1 -> mc_self c = false \/ (mc_jwt c = "" /\ sign <> None) -> used c1 c2 ->
  fst (mark_jwt e ask now c2) <> Panic.
Proof.
  intros V H U P. destruct (used_same _ _ U) as (S1&S2&_).
  assert (O : obtain e ask now c2 = Panic).
  { unfold mark_jwt in P. destruct (negb (mc_refresh c2)); [discriminate|].
    destruct (negb (String.eqb (mc_jwt c2) "") && Z.ltb (mc_min c2) (until (mc_exp c2) now))%bool; [discriminate|].
    destruct (Z.ltb (since (mc_tried c2) now) minute); [discriminate|].
    destruct (obtain e ask now c2) as [[j x]| |]; [discriminate|discriminate|reflexivity]. }
  destruct (obtain_panics _ _ _ _ O) as [A B]. rewrite S1 in A. rewrite S2 in B.
  unfold verify_mconfig in V.
  destruct (negb (String.eqb (mc_jwt c) "")) eqn:J.
  - destruct (parse (mc_jwt c)) as [[[ex is] [ty|]]|]; try discriminate. injection V as <-. cbn in A.
    destruct H as [H|[H _]]; [congruence|]. rewrite H in J. discriminate.
  - destruct (mc_self c) eqn:Se.
    + destruct (String.eqb (mc_type c) ""); [discriminate|]. injection V as <-. cbn in B.
      destruct H as [H|[_ H]]; [discriminate|]. specialize (B _ eq_refl). cbn in B. contradiction.
    + destruct (String.eqb (mc_type c) "" || String.eqb (mc_issuer c) "")%bool; [discriminate|]. injection V as <-. cbn in A. discriminate.
Qed.

(** Without refreshing nothing is obtained. *)
Lemma verified_fields parse sub ep sign c c1 : verify_mconfig parse sub ep sign c = Ok c1 ->
  mc_sub c1 = sub /\ mc_endpoint c1 = ep /\ mc_self c1 = mc_self c /\
  (mc_jwt c = "" -> mc_type c1 = mc_type c /\ mc_refresh c1 = true /\ mc_type c <> "" /\
     (mc_self c = false -> mc_issuer c1 = mc_issuer c /\ mc_issuer c <> "") /\
     (mc_self c = true -> mc_own c1 = Some (OwnIssuer sub sign (new_issuer [set_type (mc_type c) (mc_spec c)])))) /\
  (mc_jwt c <> "" -> exists ex iss typ, parse (mc_jwt c) = Some (ex, iss, Some typ) /\ mc_type c1 = typ /\ mc_issuer c1 = iss /\
     mc_jwt c1 = mc_jwt c /\ mc_refresh c1 = mc_refresh c).
Proof.
  intros V. unfold verify_mconfig in V. destruct (String.eqb_spec (mc_jwt c) "") as [J|J]; cbn [negb] in V.
  - destruct (mc_self c) eqn:Se.
    + destruct (String.eqb_spec (mc_type c) "") as [T|T]; [discriminate|]. injection V as <-. cbn.
      repeat split; try assumption; try congruence.
    + destruct (String.eqb_spec (mc_type c) "") as [T|T]; [discriminate|].
      destruct (String.eqb_spec (mc_issuer c) "") as [T2|T2]; [discriminate|]. injection V as <-. cbn.
      repeat split; try assumption; try congruence.
  - destruct (parse (mc_jwt c)) as [[[ex is] [ty|]]|] eqn:P; try discriminate. injection V as <-. cbn.
    repeat split; try contradiction. intros _. exists ex, is, ty. repeat split; reflexivity.
Qed.

(** ** The obtained mark *)

Theorem obtained_remote e ask now c j x : obtain e ask now c = Ok (j, x) -> mc_self c = false ->
  exists ep m, (mc_issuer c = mc_sub c /\ ep = mc_endpoint c \/
                exists ec, te_config e [] (mc_issuer c) = Some ec /\ ep = mark_endpoint ec /\ ep <> "") /\
    ask ep (mc_type c) (mc_sub c) = RBody j /\ is_mark e j m /\ x = match mk_exp m with Some t => t | None => zero_time end.
Proof.
  intros O S. unfold obtain in O. rewrite S in O. apply bind_ok in O as [ep [E O]].
  destruct (ask ep (mc_type c) (mc_sub c)) as [|body] eqn:A; [discriminate|].
  apply bind_ok in O as [m [P O]]. injection O as <- <-. exists ep, m. repeat split.
  - destruct (String.eqb_spec (mc_issuer c) (mc_sub c)) as [Q|Q].
    + injection E as <-. left. split; [exact Q|reflexivity].
    + right. destruct (te_config e [] (mc_issuer c)) as [ec|]; [|discriminate]. exists ec.
      destruct (String.eqb_spec (mark_endpoint ec) "") as [Z|Z]; [discriminate|]. injection E as <-. repeat split. exact Z.
  - exact A.
  - apply parse_mark_spec. exact P.
Qed.

Theorem obtained_self e k sign sub ep parse ask now c c1 c2 j x :
  verify_mconfig parse sub ep (Some sign) c = Ok c1 -> mc_self c = true -> mc_jwt c = "" -> used c1 c2 ->
  signer e sign k -> no_clash mark_fields (ms_extra (mc_spec c)) ->
  obtain e ask now c2 = Ok (j, x) ->
  exists m, is_mark e j m /\ mk_iss m = sub /\ mk_sub m = sub /\ mk_type m = mc_type c /\ mk_iat m = json_time now /\
    x = (if Z.eqb (ms_lifetime (mc_spec c)) 0 then zero_time else (now + ms_lifetime (mc_spec c))%Z) /\
    forall ks, te_verify e j ks = true <-> In k ks.
Proof.
  intros V Se J U Sg NC O. destruct (used_same _ _ U) as (S1&S2&S3&S4&_).
  destruct (verified_fields _ _ _ _ _ _ V) as (F1&F2&F3&F4&_). destruct (F4 J) as (T1&_&T2&_&Ow). specialize (Ow Se).
  unfold obtain in O. rewrite S1, F3, Se, S2, Ow in O. cbn [is_sign is_entity is_specs] in O.
  rewrite S3, T1, S4, F1 in O. apply bind_ok in O as [t [I O]].
  set (spec := set_type (mc_type c) (mc_spec c)) in *.
  assert (L : lookup (mc_type c) (new_issuer [spec]) = Some spec).
  { unfold new_issuer. cbn. rewrite String.eqb_refl. reflexivity. }
  destruct (issued_mark e sign k sub (new_issuer [spec]) spec now (mc_type c) sub None t Sg (is_new _) L NC I)
    as [m (M1&M2&M3&M4&M5&M6&M7&_&_&_&M8)].
  injection O as <- <-. exists m. repeat split; try assumption; try apply M8.
  unfold issue_mark in I. rewrite L in I. apply bind_ok in I as [jw [_ I]]. injection I as <-. cbn [ti_mark mk_exp].
  cbn [spec set_type ms_lifetime]. destruct (Z.eqb (ms_lifetime (mc_spec c)) 0); reflexivity.
Qed.

Lemma keys_nil {K} (kc : keycodec K) show :
  dec_keys kc (enc_keys kc None) = Ok None /\ dec_keys_yaml kc None (enc_keys_yaml show kc None) = Ok None /\
  dec_keys_msgpack kc (enc_keys_msgpack kc None) = Ok None.
Proof. repeat split. Qed.

Lemma verified_defaults parse sub ep sign c c1 : verify_mconfig parse sub ep sign c = Ok c1 ->
  (mc_min c = 0%Z -> mc_min c1 = (10 * second)%Z) /\ (mc_min c <> 0%Z -> mc_min c1 = mc_min c) /\
  (mc_grace c = 0%Z -> mc_grace c1 = (3600 * second)%Z) /\ (mc_grace c <> 0%Z -> mc_grace c1 = mc_grace c) /\
  (forall ex iss typ, mc_jwt c <> "" -> parse (mc_jwt c) = Some (ex, iss, typ) ->
     mc_exp c1 = match ex with Some t => t | None => zero_time end) /\
  mc_tried c1 = mc_tried c.
Proof.
  unfold verify_mconfig. intros V.
  assert (E : mc_min c1 = (if Z.eqb (mc_min c) 0 then 10 * second else mc_min c)%Z /\
              mc_grace c1 = (if Z.eqb (mc_grace c) 0 then 3600 * second else mc_grace c)%Z /\ mc_tried c1 = mc_tried c).
  { destruct (negb (String.eqb (mc_jwt c) "")).
    - destruct (parse (mc_jwt c)) as [[[ex is] [ty|]]|]; try discriminate. injection V as <-. auto.
    - destruct (mc_self c).
      + destruct (String.eqb (mc_type c) ""); [discriminate|]. injection V as <-. auto.
      + destruct ((String.eqb (mc_type c) "" || String.eqb (mc_issuer c) "")%bool); [discriminate|]. injection V as <-. auto. }
  destruct E as (E1 & E2 & E3). rewrite E1, E2. repeat split; try exact E3.
  - intros ->. reflexivity.
  - intros N. apply Z.eqb_neq in N. now rewrite N.
  - intros ->. reflexivity.
  - intros N. apply Z.eqb_neq in N. now rewrite N.
  - intros ex iss typ J P. apply String.eqb_neq in J. rewrite J in V. cbn [negb] in V. rewrite P in V.
    destruct typ; [|discriminate]. now injection V as <-.
Qed.

(** ** What is obtained is kept *)
Lemma kept_mark e ask now c j c1 : mark_jwt e ask now c = (Ok j, c1) -> j <> "" ->
  mc_jwt c1 = j /\
  (forall e' ask' now', mc_refresh c = false \/ (mc_min c1 < until (mc_exp c1) now')%Z -> mark_jwt e' ask' now' c1 = (Ok j, c1)) /\
  (c1 <> c -> obtain e ask now c = Ok (j, mc_exp c1) /\ mc_tried c1 = now).
Proof.
  intros M N. unfold mark_jwt in M. destruct (negb (mc_refresh c)) eqn:R.
  - injection M as <- <-. split; [reflexivity|]. split; [|congruence]. intros. unfold mark_jwt. now rewrite R.
  - assert (K : forall c1, mc_refresh c1 = true -> mc_jwt c1 = j -> forall e' ask' now',
      mc_refresh c = false \/ (mc_min c1 < until (mc_exp c1) now')%Z -> mark_jwt e' ask' now' c1 = (Ok j, c1)).
    { intros c' R' J' e' ask' now' [H|H]; [rewrite H in R; discriminate|]. unfold mark_jwt. rewrite R', J'. cbn [negb].
      apply String.eqb_neq in N. rewrite N. apply Z.ltb_lt in H. rewrite H. reflexivity. }
    apply Bool.negb_false_iff in R.
    destruct (negb (String.eqb (mc_jwt c) "") && Z.ltb (mc_min c) (until (mc_exp c) now))%bool.
    + injection M as <- <-. split; [reflexivity|]. split; [now apply K|congruence].
    + destruct (Z.ltb (since (mc_tried c) now) minute); [discriminate|].
      destruct (obtain e ask now c) as [[j' x]| |]; try discriminate. injection M as -> <-.
      split; [reflexivity|]. split; [apply K; [exact R|reflexivity]|]. intros _. split; reflexivity.
Qed.
Lemma failed_mark e ask now c r c1 : mark_jwt e ask now c = (r, c1) -> (forall j, r <> Ok j) ->
  mc_jwt c1 = mc_jwt c /\ mc_exp c1 = mc_exp c.
Proof.
  unfold mark_jwt. intros M N. destruct (negb (mc_refresh c)); [injection M as <- <-; now contradiction (N (mc_jwt c))|].
  destruct (negb (String.eqb (mc_jwt c) "") && Z.ltb (mc_min c) (until (mc_exp c) now))%bool; [injection M as <- <-; now contradiction (N (mc_jwt c))|].
  destruct (Z.ltb (since (mc_tried c) now) minute); [injection M as <- <-; auto|].
  destruct (obtain e ask now c) as [[j' x]| |]; injection M as <- <-; auto. now contradiction (N j').
Qed.
