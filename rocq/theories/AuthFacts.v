(** Authenticity of chains. *)
From Coq Require Import Lia.
From Verif Require Import Base GoVal Policy Schema Metadata Chain Resolver SpecResolver SpecChain SpecAuth BaseFacts
  ResolverFacts ResolverLaws MetadataFacts ChainFacts.
Local Open Scope string_scope.

(** The statements after the first one are served as they are, the last one as the
    configuration of its issuer. *)
Lemma path_served w tas p e below hs :
  path_up w tas p e below hs -> (hs = [] -> exists q, w_config w q (st_iss e) = Some e) ->
  (forall s, In s (map h_sub hs) -> exists q ep sub iss, w_fetch w q ep sub iss = Some s) /\
  (exists q, w_config w q (st_iss (top e hs)) = Some (top e hs)).
Proof.
  induction 1; intros E; cbn [map top h_ec h_sub In].
  - split; [intros s []|auto].
  - destruct IHpath_up as [F T]; [intros _; eauto|]. split; [|exact T].
    intros s' [<-|Hs]; [|now apply F]. repeat eexists. eassumption.
Qed.

Section Auth.
Context (w : world) (dec : string -> option stmt) (owns signed : string -> string -> Prop).
Context (I : ideal w dec owns signed).

Lemma signed_by_owner id s ks : signed_by w s ks -> (forall l k, ks = Some l -> In k l -> owns id k) ->
  signed id (st_jwt s).
Proof. intros (k & l & -> & V) O. eapply (id_unforgeable _ _ _ _ I); [|exact V]. intros k' Hk. exact (O _ _ eq_refl Hk). Qed.

Lemma chain_genuine tas c : signed_chain w tas c -> linked c ->
  (forall ta, In ta tas -> anchor_known w owns ta) ->
  (forall pre t, c = (pre ++ [t])%list -> st_iss t = st_sub t /\ exists q, w_config w q (st_iss t) = Some t) ->
  (forall a s, In s (tl c) -> c <> [a] -> dec (st_jwt s) = Some s) ->
  forall lower s upper, c = (lower ++ s :: upper)%list ->
    (forall x, In x upper -> careful dec owns signed (st_iss x)) -> signed (st_iss s) (st_jwt s).
Proof.
  intros S. induction S as [s t ks K Ss St|a b c Sa Sc IH]; intros L A T D lower s0 upper E C.
  - destruct (T [s] t eq_refl) as [Et [q Hq]].
    assert (O : forall l k, ks = Some l -> In k l -> owns (st_iss t) k).
    { intros l k -> Hk. destruct K as (pre & ta & post & Etas & Eid & _ & Eks).
      assert (Hta : In ta tas) by (rewrite Etas; apply in_or_app; right; now left).
      specialize (A _ Hta). unfold anchor_known in A. rewrite Eid in A. destruct (ta_jwks ta).
      - injection Eks as <-. now apply A.
      - eapply A; eauto. }
    destruct lower as [|x [|y lower]].
    + injection E as <- _. replace (st_iss s) with (st_iss t); [eapply signed_by_owner; eauto|].
      rewrite Et. symmetry. exact (L [] s t [] eq_refl).
    + injection E as _ <- _. eapply signed_by_owner; eauto.
    + injection E as _ _ E. destruct lower; discriminate.
  - assert (IH' : forall lower s upper, (b :: c = lower ++ s :: upper)%list ->
        (forall x, In x upper -> careful dec owns signed (st_iss x)) -> signed (st_iss s) (st_jwt s)).
    { apply IH; auto.
      - intros pre x y post Eq. apply (L (a :: pre) x y post). now rewrite Eq.
      - intros pre t Eq. apply (T (a :: pre) t). now rewrite Eq.
      - intros a' s Hs _. apply (D a s); [|discriminate]. cbn [tl] in *. now right. }
    destruct lower as [|x lower].
    + injection E as <- <-. pose proof (IH' [] b c eq_refl (fun x Hx => C x (or_intror Hx))) as Hb.
      assert (Db : dec (st_jwt b) = Some b) by (apply (D a b); [now left|discriminate]).
      rewrite (L [] a b c eq_refl). eapply signed_by_owner; [exact Sa|].
      intros l k El Hk. exact (C b (or_introl eq_refl) _ _ _ _ Hb Db eq_refl El Hk).
    + injection E as _ E. eapply IH'; eauto.
Qed.

Theorem returned_genuine tas types start c :
  (forall ta, In ta tas -> anchor_known w owns ta) ->
  returned w tas types start c -> List.length c <> 1 ->
  forall lower s upper, c = (lower ++ s :: upper)%list ->
    (forall x, In x upper -> careful dec owns signed (st_iss x)) -> signed (st_iss s) (st_jwt s).
Proof.
  intros A R N. pose proof (chain_signed _ _ _ _ _ R N) as S. pose proof (chain_linked _ _ _ _ _ R) as L.
  destruct (returned_path _ _ _ _ _ R N) as (e & h & hs & SC & P & _ & Ec).
  destruct (path_served _ _ _ _ _ _ P) as [F [q T]]; [discriminate|].
  apply chain_genuine with (tas := tas); auto.
  - intros pre t Eq. rewrite Ec in Eq. unfold chain_along in Eq. rewrite app_comm_cons in Eq.
    apply app_inj_tail in Eq. destruct Eq as [_ <-].
    apply path_top in P; [|discriminate]. destruct P as [_ E]. split; [auto|]. eauto.
  - intros a s Hs _. rewrite Ec in Hs. unfold chain_along in Hs. cbn [tl] in Hs. apply in_app_or in Hs.
    destruct Hs as [Hs|[<-|[]]].
    + destruct (F _ Hs) as (p & ep & sub & iss & W). exact (id_fetch _ _ _ _ I _ _ _ _ _ W).
    + exact (id_config _ _ _ _ I _ _ _ T).
Qed.

(** The first statement is what its issuer published, with the metadata of other than the
    requested types left out. *)
Theorem returned_leaf tas types start e r :
  (forall ta, In ta tas -> anchor_known w owns ta) ->
  returned w tas types start (e :: r) -> r <> [] ->
  (forall x, In x r -> careful dec owns signed (st_iss x)) ->
  exists s m, dec (st_jwt s) = Some s /\ signed (st_iss s) (st_jwt s) /\ st_metadata s = Some m /\
    e = with_metadata s (Some (match types with [] => m | _ => nil_all_except m types end)).
Proof.
  intros A R N C. pose proof (returned_root _ _ _ _ _ R) as (e' & (_ & s & m & EC & EM & Ee) & RC).
  assert (e' = e) as ->. { destruct RC as [[Eq _]|(h & hs & _ & _ & Eq)]; injection Eq; auto. }
  exists s, m. split; [exact (id_config _ _ _ _ I _ _ _ EC)|]. split; [|auto].
  assert (L : List.length (e :: r) <> 1) by (destruct r; [congruence|discriminate]).
  pose proof (returned_genuine tas types start (e :: r) A R L [] e r eq_refl C) as G. now rewrite Ee in G.
Qed.
End Auth.

(** Every statement of the chain, when all the issuers above the first statement are
    careful. *)
Theorem returned_all_genuine w dec owns signed tas types start e r :
  ideal w dec owns signed -> (forall ta, In ta tas -> anchor_known w owns ta) ->
  returned w tas types start (e :: r) -> r <> [] ->
  (forall x, In x r -> careful dec owns signed (st_iss x)) ->
  forall s, In s (e :: r) -> signed (st_iss s) (st_jwt s).
Proof.
  intros I A R N C s Hs. apply in_split in Hs. destruct Hs as (lower & upper & E).
  assert (L : List.length (e :: r) <> 1) by (destruct r; [congruence|discriminate]).
  eapply returned_genuine; eauto. intros x Hx. apply C.
  destruct lower as [|y lower]; injection E as -> ->; [auto|]. apply in_or_app. right. now right.
Qed.

Theorem returned_metadata w dec owns signed tas types start e r md :
  ideal w dec owns signed -> (forall ta, In ta tas -> anchor_known w owns ta) ->
  returned w tas types start (e :: r) -> r <> [] ->
  (forall x, In x r -> careful dec owns signed (st_iss x)) ->
  chain_metadata (e :: r) = Ok md ->
  exists m pub pm, md = Some m /\ st_metadata pub = Some pm /\
    dec (st_jwt pub) = Some pub /\ signed (st_iss pub) (st_jwt pub) /\
    (forall s, In s r -> dec (st_jwt s) = Some s /\ signed (st_iss s) (st_jwt s)) /\
    leaf_metadata (e :: r) = match types with [] => pm | _ => nil_all_except pm types end /\
    forall t, In t entity_types -> type_result t (e :: r) m.
Proof.
  intros I A R N C H. destruct (returned_leaf _ _ _ _ I _ _ _ _ _ A R N C) as (pub & pm & D & S & M & E).
  assert (L : 2 <= List.length (e :: r)) by (destruct r; [congruence|cbn; lia]).
  destruct (chain_metadata_types _ _ L H) as (m & -> & T & _). exists m, pub, pm.
  split; [reflexivity|]. split; [exact M|]. split; [exact D|]. split; [exact S|]. split.
  - intros s Hs. split; [|eapply returned_all_genuine; eauto; now right].
    assert (N1 : List.length (e :: r) <> 1) by (cbn; destruct r; [congruence|discriminate]).
    destruct (returned_path _ _ _ _ _ R N1) as (e' & h & hs & _ & P & _ & Ec). injection Ec as <- ->.
    destruct (path_served _ _ _ _ _ _ P) as [F [q Tp]]; [discriminate|]. rewrite app_comm_cons in Hs. apply in_app_or in Hs. destruct Hs as [Hs|[<-|[]]].
    + destruct (F _ Hs) as (p & ep & sub & iss & W). exact (id_fetch _ _ _ _ I _ _ _ _ _ W).
    + exact (id_config _ _ _ _ I _ _ _ Tp).
  - split; [|exact T]. cbn [leaf_metadata]. rewrite E. cbn [with_metadata st_metadata]. reflexivity.
Qed.
