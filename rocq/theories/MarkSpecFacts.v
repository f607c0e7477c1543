(** Proofs about trust mark specifications in JSON. *)
From Coq Require Import QArith Qround Lia.
From Verif Require Import Base BaseFacts GoVal Policy Schema Metadata Chain FloatTime SpecTime FloatFacts TimeFacts Json SpecJson JsonFacts TrustMark Refresher Config SpecConfig ConfigFacts MarkSpecJson SpecMarkSpec.
Local Open Scope nat_scope.
Local Open Scope string_scope.

Lemma spec_folded : map fold_name (tags spec_fields) = spec_names.
Proof. reflexivity. Qed.

Theorem jspec_roundtrip s l : ms_lifetime s = seconds l -> (Z.abs l <= 4611686018)%Z -> set_apart (ms_extra s) -> read_json (marshal_jspec s) s.
Proof.
  intros L B [N D]. unfold read_json, unmarshal_jspec, marshal_jspec.
  assert (R : decode spec_fields (marshal spec_fields (spec_values s) (ms_extra s)) = Ok (spec_values s, ms_extra s)).
  { apply marshal_roundtrip.
    - unfold distinct_names. rewrite spec_folded. apply nodupb_ok. vm_compute. reflexivity.
    - unfold spec_fields, spec_values. repeat constructor; try (cbn [f_omit]; discriminate).
      cbn [f_codec sdur_codec c_dec c_zero c_enc]. do 2 f_equal. change (json_duration (ms_lifetime s) = ms_lifetime s). rewrite L. now apply duration_roundtrip.
    - split; [exact N|]. intros k I. rewrite spec_folded. now apply D. }
  unfold decode in R. change (zeros spec_fields) with (spec_values zero_spec) in R. rewrite R. cbn [bind]. destruct s. reflexivity.
Qed.

(** ** JSON and YAML say the same *)

Fixpoint json_ind' (P : json -> Prop) (Hn : P JNull) (Hb : forall b, P (JBool b)) (Hq : forall q, P (JNum q)) (Hs : forall s, P (JStr s))
  (Ha : forall l, Forall P l -> P (JArr l)) (Ho : forall o, Forall (fun kv => P (snd kv)) o -> P (JObj o)) (j : json) {struct j} : P j :=
  match j with
  | JNull => Hn | JBool b => Hb b | JNum q => Hq q | JStr s => Hs s
  | JArr l => Ha l ((fix go l := match l return Forall P l with [] => Forall_nil _ | x :: r => Forall_cons _ (json_ind' P Hn Hb Hq Hs Ha Ho x) (go r) end) l)
  | JObj o => Ho o ((fix go o := match o return Forall (fun kv => P (snd kv)) o with [] => Forall_nil _ | x :: r => Forall_cons _ (json_ind' P Hn Hb Hq Hs Ha Ho (snd x)) (go r) end) o)
  end.
Lemma there_and_back show j : to_json (to_yaml show j) = j.
Proof.
  induction j as [| | | |l IH|o IH] using json_ind'; cbn [to_yaml to_json]; try reflexivity; f_equal; rewrite map_map.
  - induction IH as [|x r E _ IHr]; cbn [map]; congruence.
  - induction IH as [|[k x] r E _ IHr]; cbn [map fst snd] in *; congruence.
Qed.

Definition agrees (vs : list sval) (ys : yspec) : Prop :=
  vs = [SStr (ys_type ys); SDur (ys_lifetime ys); SStr (ys_ref ys); SStr (ys_logo ys); SBool (ys_include ys); SStr (ys_deleg ys)].

Lemma str_step show j old s : dec_str old j = Ok s -> ystr old (to_yaml show j) = Ok s.
Proof. destruct j; cbn; intros H; try discriminate H; exact H. Qed.

Lemma members_agree show : forall o vs ys vs', NoDup (keys o) -> (forall k, In k (keys o) -> In (fold_name k) spec_names -> In k spec_names) ->
  (In "lifetime" (keys o) -> ys_lifetime ys = 0%Z) -> agrees vs ys -> dec_fields spec_fields o vs = Ok vs' ->
  exists ys', yspec_members (map (fun kv => (fst kv, to_yaml show (snd kv))) o) ys = Ok ys' /\ agrees vs' ys'.
Proof.
  induction o as [|[k j] o IH]; intros vs ys vs' N W L A H; cbn [dec_fields] in H.
  - injection H as <-. exists ys. split; [reflexivity|exact A].
  - cbn [map fst snd yspec_members]. inversion N as [|? ? Nk No]; subst.
    assert (W' : forall k0, In k0 (keys o) -> In (fold_name k0) spec_names -> In k0 spec_names) by (intros; apply W; [now right|assumption]).
    destruct (in_dec string_dec k spec_names) as [I|NI].
    + assert (L' : k <> "lifetime" -> In "lifetime" (keys o) -> ys_lifetime ys = 0%Z) by (intros _ X; apply L; now right).
      assert (LK : k = "lifetime" -> ~ In "lifetime" (keys o)) by (intros ->; exact Nk).
      assert (LZ : k = "lifetime" -> ys_lifetime ys = 0%Z) by (intros ->; apply L; now left).
      clear L W N Nk. unfold agrees in A. subst vs. unfold yspec_member.
      destruct I as [<- | [<- | [<- | [<- | [<- | [<- | []]]]]]];
        match type of H with context [field_of (tags spec_fields) ?kk] => let v := eval vm_compute in (field_of (tags spec_fields) kk) in change (field_of (tags spec_fields) kk) with v in H end;
        cbn [nth_error spec_fields f_codec set_nth] in H;
        cbn [String.eqb Ascii.eqb Bool.eqb].
      1,3,4,6: apply bind_ok in H as (v & E & H); cbn [sstr_codec c_dec] in E; apply bind_ok in E as (s & E & EV); injection EV as <-;
        rewrite (str_step show _ _ _ E); cbn [bind]; (eapply IH; [exact No|exact W'| |reflexivity|exact H]); intros X; cbn [ys_lifetime]; apply L'; [discriminate|exact X].
      * apply bind_ok in H as (v & E & H). cbn [sdur_codec c_dec] in E.
        assert (EY : exists d, yduration (ys_lifetime ys) (to_yaml show j) = Ok d /\ v = SDur d).
        { destruct j; try discriminate E; injection E as <-; cbn [to_yaml yduration yfloat bind]; eauto.
          exists (ys_lifetime ys). split; [reflexivity|]. rewrite LZ by reflexivity. vm_compute. reflexivity. }
        destruct EY as (d & -> & ->). cbn [bind]. eapply IH; [exact No|exact W'| |reflexivity|exact H].
        intros X. exfalso. now apply LK.
      * apply bind_ok in H as (v & E & H). cbn [sbool_codec c_dec] in E.
        assert (EY : exists b, ybool (ys_include ys) (to_yaml show j) = Ok b /\ v = SBool b).
        { destruct j; try discriminate E; injection E as <-; cbn [to_yaml ybool]; eauto. }
        destruct EY as (b & -> & ->). cbn [bind]. eapply IH; [exact No|exact W'| |reflexivity|exact H].
        intros X. cbn [ys_lifetime]. apply L'; [discriminate|exact X].
    + rewrite field_of_none in H by (rewrite spec_folded; intros X; apply NI; apply W; [now left|exact X]).
      rewrite yspec_member_skip by exact NI. cbn [bind]. eapply IH; eauto. intros X. apply L. now right.
Qed.

Lemma unique_NoDup show o : unique (to_yaml show (JObj o)) = true -> NoDup (keys o).
Proof.
  cbn [to_yaml unique]. intros H. apply andb_prop in H as [H _]. unfold keys in *. rewrite map_map in H. cbn [fst] in H.
  revert H. induction (map fst o) as [|x r IH]; cbn [distinct]; intros H; constructor; apply andb_prop in H as [H1 H2]; auto.
  apply Bool.negb_true_iff in H1. now apply mem_nIn.
Qed.

Lemma extra_back show ts o : map (fun kv => (fst kv, to_json (snd kv))) (filter (fun kv => negb (mem (fst kv) ts)) (map (fun kv => (fst kv, to_yaml show (snd kv))) o)) =
  filter (fun kv => negb (mem (fst kv) ts)) o.
Proof.
  induction o as [|[k j] o IH]; [reflexivity|]. cbn [map filter fst snd]. destruct (mem k ts); cbn [negb map fst snd]; [exact IH|].
  rewrite there_and_back. f_equal. exact IH.
Qed.

Theorem json_as_yaml show o s : well_named o -> read_json (JObj o) s -> exists s', read_spec (to_yaml show (JObj o)) s' /\ spec_of s' = s.
Proof.
  intros [U W] R. unfold read_json, unmarshal_jspec in R. apply bind_ok in R as ([vs x] & R & V). cbn [unmarshal_with_extra] in R.
  apply bind_ok in R as (vs0 & D & R). injection R as <- <-. pose proof (unique_NoDup _ _ (U show)) as N.
  destruct (members_agree show o (spec_values zero_spec) zero_yspec vs0 N W (fun _ => eq_refl) eq_refl D) as (ys & M & A).
  unfold agrees in A. subst vs0. cbn [of_values] in V. injection V as <-.
  eexists. split.
  - unfold read_spec, unmarshal_yspec. pose proof (U show) as Us. cbn [to_yaml] in *. rewrite Us, M. cbn [bind]. reflexivity.
  - unfold spec_of. cbn [ys_type ys_lifetime ys_ref ys_logo ys_extra ys_include ys_deleg]. f_equal.
    rewrite as_map_id by exact N. exact (extra_back show yspec_tags o).
Qed.

(** What is written is the same. *)
Lemma map_insert {A B} (f : A -> B) k v m : map (fun kv => (fst kv, f (snd kv))) (insert k v m) = insert k (f v) (map (fun kv => (fst kv, f (snd kv))) m).
Proof. induction m as [|[k' v'] m IH]; cbn; [reflexivity|]. destruct (String.eqb k k'); cbn; [reflexivity|]. now rewrite IH. Qed.
Theorem written_alike show s : to_json (marshal_yspec show s) = marshal_jspec (spec_of s).
Proof.
  unfold marshal_yspec, marshal_jspec, marshal. cbn [to_json]. f_equal. unfold overlay.
  change (ms_extra (spec_of s)) with (map (fun kv => (fst kv, to_json (snd kv))) (ys_extra s)).
  match goal with |- map ?f (fold_left _ _ ?a) = fold_left _ _ ?b => set (A := a); set (B := b); assert (E : map f A = B) by reflexivity; clearbody A B end.
  revert A B E. induction (ys_extra s) as [|[k y] x IH]; intros A B E; cbn [fold_left map fst snd]; [exact E|].
  apply IH. rewrite map_insert, E. reflexivity.
Qed.

Theorem json_lifetime o s q sign ent now sub t : well_named o -> read_json (JObj o) s -> lookup "lifetime" o = Some (JNum q) ->
  (1 <= q)%Q -> (q < inject_Z 9223372037)%Q -> issue_mark sign ent (new_issuer [s]) now (ms_type s) sub None = Ok t ->
  exists m, ti_mark t = Some m /\ mk_exp m = Some (now + seconds (Qfloor q))%Z.
Proof.
  intros W R M L1 L2 I. destruct (json_as_yaml (fun _ => "") o s W R) as (s' & R' & <-).
  refine (configured_lifetime _ s' q "" sign ent now sub t R' _ L1 L2 I).
  cbn [to_yaml member]. clear - M. induction o as [|[k j] o IH]; cbn [lookup map fst snd] in *; [discriminate M|].
  destruct (String.eqb "lifetime" k); [injection M as ->; reflexivity|]. now apply IH.
Qed.

(** ** Which documents can be read *)

Lemma spec_field k : ~ In (fold_name k) spec_names /\ field_of (tags spec_fields) k = None \/
  exists i, nth_error spec_names i = Some (fold_name k) /\ field_of (tags spec_fields) k = Some i.
Proof.
  destruct (in_dec string_dec (fold_name k) spec_names) as [I|NI].
  - right. destruct (in_dec string_dec k spec_names) as [K|NK].
    + destruct K as [<- | [<- | [<- | [<- | [<- | [<- | []]]]]]]; eexists; (split; [|vm_compute; reflexivity]); reflexivity.
    + assert (N : index_of (String.eqb k) (tags spec_fields) = None).
      { change (tags spec_fields) with spec_names. revert NK. generalize spec_names. induction l as [|x l IH]; intros NK; [reflexivity|]. cbn [index_of].
        destruct (String.eqb_spec k x) as [->|_]; [exfalso; apply NK; now left|]. rewrite IH; [reflexivity|]. intros X; apply NK; now right. }
      unfold field_of. rewrite N. destruct I as [<- | [<- | [<- | [<- | [<- | [<- | []]]]]]]; eexists; (split; [|vm_compute; reflexivity]); reflexivity.
  - left. split; [exact NI|]. apply field_of_none. now rewrite spec_folded.
Qed.

Definition shaped (vs : list sval) : Prop := exists t d r l i de, vs = [SStr t; SDur d; SStr r; SStr l; SBool i; SStr de].

Lemma spec_member k j o vs : shaped vs ->
  (member_fits (k, j) /\ exists vs', shaped vs' /\ dec_fields spec_fields ((k, j) :: o) vs = dec_fields spec_fields o vs') \/
  (~ member_fits (k, j) /\ dec_fields spec_fields ((k, j) :: o) vs = Err).
Proof.
  intros (t & d & r & l & i & de & ->). cbn [dec_fields].
  destruct (spec_field k) as [[NI ->]|(n & E & ->)].
  - left. split; [|eexists; split; [|reflexivity]; unfold shaped; eauto 10].
    unfold member_fits. cbn [fst snd]. repeat split; intros X; exfalso; apply NI; [|rewrite X; vm_compute; tauto..].
    destruct X as [<- | [<- | [<- | [<- | []]]]]; vm_compute; tauto.
  - unfold member_fits. cbn [fst snd].
    destruct n as [|[|[|[|[|[|n]]]]]]; try (exfalso; cbn in E; destruct n; discriminate E); cbn [nth_error spec_names] in E; injection E as <-;
      cbn [nth_error spec_fields f_codec set_nth sstr_codec sdur_codec sbool_codec c_dec];
      destruct j as [|b|q|s|a|m]; cbn [dec_str bind];
      ((left; split; [repeat split; intros X; first [left; reflexivity | right; eexists; reflexivity | exfalso; vm_compute in X; first [discriminate X | tauto | destruct X as [X|[X|[X|[X|[]]]]]; discriminate X]]
                    |eexists; split; [|reflexivity]; unfold shaped; eauto 10])
       || (right; split; [|reflexivity]; intros (X & Y & Z);
           first [destruct X as [X|(? & X)]; [vm_compute; tauto|discriminate X..] | destruct Y as [Y|(? & Y)]; [reflexivity|discriminate Y..] | destruct Z as [Z|(? & Z)]; [reflexivity|discriminate Z..]])).
Qed.

Lemma spec_members : forall o vs, shaped vs ->
  (Forall member_fits o /\ exists vs', shaped vs' /\ dec_fields spec_fields o vs = Ok vs') \/ (~ Forall member_fits o /\ dec_fields spec_fields o vs = Err).
Proof.
  induction o as [|[k j] o IH]; intros vs S; [left; split; [constructor|]; exists vs; auto|].
  destruct (spec_member k j o vs S) as [(M & vs' & S' & ->)|(M & ->)].
  - destruct (IH vs' S') as [(F & vs2 & S2 & E)|(F & E)]; [left; split; [now constructor|eauto]|right; split; [|exact E]].
    intros X. inversion X. contradiction.
  - right. split; [|reflexivity]. intros X. inversion X. contradiction.
Qed.

Lemma shaped_values s : shaped (spec_values s).
Proof. unfold shaped, spec_values. eauto 10. Qed.

Theorem jspec_readable s j : (exists s', unmarshal_jspec j s = Ok s') <-> j = JNull \/ exists o, j = JObj o /\ Forall member_fits o.
Proof.
  unfold unmarshal_jspec, unmarshal_with_extra. split.
  - intros (s' & H). destruct j as [|b|q|x|a|o]; cbn [bind] in H; try discriminate H; [now left|]. right. exists o. split; [reflexivity|].
    destruct (spec_members o _ (shaped_values s)) as [(F & _)|(_ & E)]; [exact F|]. rewrite E in H. discriminate H.
  - intros [-> | (o & -> & F)]; [destruct s; cbn; eauto|].
    destruct (spec_members o _ (shaped_values s)) as [(_ & vs' & (t & d & r & l & i & de & ->) & ->)|(N & _)]; [|contradiction]. cbn. eauto.
Qed.
Theorem jspec_no_panic s j : unmarshal_jspec j s <> Panic.
Proof.
  unfold unmarshal_jspec, unmarshal_with_extra. destruct j as [|b|q|x|a|o]; cbn [bind]; try discriminate.
  destruct (spec_members o _ (shaped_values s)) as [(_ & vs' & (t & d & r & l & i & de & ->) & ->)|(_ & ->)]; discriminate.
Qed.
