From Verif Require Import Base GoVal Policy Schema Metadata Chain Resolver SpecResolver BaseFacts.
Local Open Scope string_scope.

(** ** Small facts *)

Lemma valid_at_spec now s : time_valid now s = true <-> valid_at now s.
Proof.
  unfold time_valid, verify_time, valid_at, is_zero_time, after, before.
  destruct (Z.eqb_spec (st_iat s) zero_time), (Z.eqb_spec (st_exp s) zero_time);
    destruct (Z.ltb_spec now (st_iat s)), (Z.ltb_spec (st_exp s) now); simpl;
    split; intros K; try discriminate K; auto; try (split; auto; right; lia);
    destruct K as [[?|?] [?|?]]; try contradiction; try lia; auto.
Qed.

Lemma verify_spec w s ks : verify w s ks = true <-> signed_by w s ks.
Proof.
  unfold verify, signed_by. destruct ks as [[|k l]|]; split; try discriminate.
  - intros (? & ? & [=] & _).
  - eauto.
  - intros (? & ? & [= <- <-] & E). exact E.
  - intros (? & ? & [=] & _).
Qed.

Lemma append_empty_r s : s ++ "" = s.
Proof. induction s as [|c s IH]; simpl; [reflexivity|now rewrite IH]. Qed.

Lemma has_suffix_spec suf s : has_suffix suf s = true <-> exists pre, s = pre ++ suf.
Proof.
  induction s as [|c s IH].
  - cbn [has_suffix]. rewrite orb_false_r, String.eqb_eq. split.
    + intros <-. now exists "".
    + intros ([|a pre] & E); [exact E|discriminate].
  - cbn [has_suffix]. rewrite orb_true_iff, String.eqb_eq, IH. split.
    + intros [<-|(pre & ->)]; [now exists ""|now exists (String c pre)].
    + intros ([|a pre] & E); [left; exact E|]. injection E as -> E. right. now exists pre.
Qed.

Lemma match_naming_spec w c id : match_naming w c id = true <-> name_matches w c id.
Proof.
  unfold match_naming, name_matches. destruct (w_host w id) as [host|].
  2: { split; [discriminate|intros (h & [=] & _)]. }
  assert (P : has_prefix "." c = true <-> exists rest, c = "." ++ rest).
  { destruct c as [|a c]; cbn [has_prefix].
    - split; [discriminate|intros (r & [=])].
    - rewrite andb_true_r, Ascii.eqb_eq. split; [intros <-; now exists c|now intros (r & [= -> _])]. }
  destruct (has_prefix "." c) eqn:E.
  - destruct (proj1 P eq_refl) as (r & Er). rewrite has_suffix_spec. split.
    + intros H. exists host. split; auto. left. exists r. auto.
    + intros (h & [= <-] & [(r' & _ & H)|[N _]]); auto. exfalso. now apply (N r).
  - rewrite String.eqb_eq. split.
    + intros <-. exists c. split; auto. right. split; auto. intros r Er.
      assert (false = true) by (apply P; eauto). discriminate.
    + intros (h & [= <-] & [(r' & Er & H)|[N H]]); auto.
      assert (false = true) by (apply P; eauto). discriminate.
Qed.

Lemma subtract_nil l r : subtract l r = [] <-> forall x, In x l -> In x r.
Proof.
  unfold subtract. induction l as [|x l IH]; simpl; [split; [intros _ _ []|auto]|].
  destruct (mem x r) eqn:E; simpl.
  - rewrite IH. apply mem_In in E. split; [intros H y [<-|]; auto|auto].
  - split; [discriminate|]. intros H. apply mem_nIn in E. exfalso. auto.
Qed.

(** ** Constraints *)

Definition same_types (types : list string) (l : list stmt) : Prop :=
  forall t, In t types <-> In t (flat_map types_of l).

Lemma check_naming_spec w n l :
  check_naming w n (map st_sub l) = true <->
  (forall e x, In e l -> In x (nc_excluded n) -> ~ name_matches w x (st_sub e)) /\
  (forall p e, nc_permitted n = Some p -> In e l -> exists x, In x p /\ name_matches w x (st_sub e)).
Proof.
  unfold check_naming. rewrite forallb_forall. split.
  - intros H. split.
    + intros e x He Hx M. specialize (H (st_sub e) (in_map st_sub l e He)).
      apply andb_true_iff in H. destruct H as [H _]. apply negb_true_iff in H.
      assert (K : existsb (fun c => match_naming w c (st_sub e)) (nc_excluded n) = true).
      { apply existsb_exists. exists x. split; auto. now apply match_naming_spec. }
      congruence.
    + intros p e E He. specialize (H (st_sub e) (in_map st_sub l e He)).
      apply andb_true_iff in H. destruct H as [_ H]. rewrite E in H.
      apply existsb_exists in H. destruct H as (x & Hx & M). exists x. split; auto.
      now apply match_naming_spec.
  - intros [H1 H2] id Hid. apply in_map_iff in Hid. destruct Hid as (e & <- & He).
    apply andb_true_iff. split.
    + apply negb_true_iff. destruct (existsb _ (nc_excluded n)) eqn:E; auto.
      apply existsb_exists in E. destruct E as (x & Hx & M). apply match_naming_spec in M.
      exfalso. eapply H1; eauto.
    + destruct (nc_permitted n) as [p|] eqn:E; auto.
      destruct (H2 p e eq_refl He) as (x & Hx & M). apply existsb_exists. exists x. split; auto.
      now apply match_naming_spec.
Qed.

Lemma check_constraints_spec w types e below co :
  same_types types (e :: below) ->
  check_constraints w (List.length below) types (map st_sub (e :: below)) co = true <->
  forall c, co = Some c -> constraints_met w c (e :: below).
Proof.
  intros ST. destruct co as [c|]; [|split; [discriminate|reflexivity]].
  unfold check_constraints. rewrite !andb_true_iff. split.
  - intros [[H1 H2] H3] c' [= <-]. constructor.
    + intros m E. rewrite E in H1. apply negb_true_iff in H1. apply Z.ltb_ge in H1.
      cbn [List.length]. lia.
    + intros n x y E. rewrite E in H2. apply check_naming_spec in H2. destruct H2 as [H2 _]. apply H2.
    + intros n l x E EP. rewrite E in H2. apply check_naming_spec in H2. destruct H2 as [_ H2]. now apply H2.
    + intros l x t E Hx Ht. rewrite E in H3.
      destruct (subtract types (l ++ ["federation_entity"])%list) eqn:S; [|discriminate].
      rewrite subtract_nil in S. specialize (S t). rewrite in_app_iff in S.
      destruct S as [K|[K|[]]]; auto. apply ST. apply in_flat_map. eauto.
  - intros H. destruct (H c eq_refl) as [C1 C2 C3 C4]. repeat split.
    + apply negb_true_iff. destruct (co_max_path c) as [m|]; auto. apply Z.ltb_ge.
      specialize (C1 m eq_refl). cbn [List.length] in C1. lia.
    + destruct (co_naming c) as [n|]; auto. apply check_naming_spec. split; eauto.
    + destruct (co_types c) as [l|]; auto.
      destruct (subtract types (l ++ ["federation_entity"])%list) eqn:S; auto. exfalso.
      assert (subtract types (l ++ ["federation_entity"])%list = []); [|congruence].
      apply subtract_nil. intros t Ht. apply ST in Ht. apply in_flat_map in Ht.
      destruct Ht as (x & Hx & Ht). apply in_app_iff.
      destruct (C4 l x t eq_refl Hx Ht) as [K|K]; auto. right. left. auto.
Qed.

(** ** One hint *)

Definition hop_ok (w : world) (p : list nat) (e : stmt) (below : list stmt) (a : string) (ec s : stmt) : Prop :=
  st_iss ec = a /\
  (forall x, In x (e :: below) -> st_sub x <> st_iss ec) /\
  w_config w p (st_iss ec) = Some ec /\
  st_sub ec = st_iss ec /\
  valid_at (w_now w p false) ec /\
  fetch_endpoint ec <> "" /\
  w_fetch w p (fetch_endpoint ec) (st_iss e) (st_iss ec) = Some s /\
  st_iss s = st_iss ec /\
  st_sub s = st_iss e /\
  valid_at (w_now w p true) s /\
  (forall c, st_constraints s = Some c -> constraints_met w c (e :: below)).

Lemma hint_step_spec w p e below types a ec s :
  same_types types (e :: below) ->
  hint_step w p e (List.length below) types (map st_sub (e :: below)) a = Some (ec, s) <->
  hop_ok w p e below a ec s.
Proof.
  intros ST. unfold hint_step, hop_ok. split.
  - destruct (mem a (map st_sub (e :: below))) eqn:EM; [discriminate|].
    destruct (w_config w p a) as [ec'|] eqn:EC; [|discriminate].
    destruct (String.eqb_spec (st_iss ec') (st_sub ec')) as [E1|]; [|discriminate].
    destruct (String.eqb_spec (st_iss ec') a) as [E2|]; [|discriminate].
    destruct (time_valid (w_now w p false) ec') eqn:ET; [|discriminate]. cbn [negb andb orb].
    destruct (String.eqb_spec (fetch_endpoint ec') ""); [discriminate|].
    destruct (w_fetch w p (fetch_endpoint ec') (st_iss e) a) as [s'|] eqn:EF; [|discriminate].
    destruct (String.eqb_spec (st_iss s') a) as [E3|]; [|discriminate].
    destruct (String.eqb_spec (st_sub s') (st_iss e)) as [E4|]; [|discriminate].
    destruct (time_valid (w_now w p true) s') eqn:ET'; [|discriminate]. cbn [negb andb orb].
    destruct (check_constraints w (List.length below) types _ (st_constraints s')) eqn:ECo; [|discriminate].
    cbn [negb]. intros [= <- <-].
    apply mem_nIn in EM. apply valid_at_spec in ET, ET'.
    pose proof (proj1 (check_constraints_spec w types e below (st_constraints s') ST) ECo) as ECo'.
    subst a. repeat (split; [now auto|]). split.
    { intros x Hx Ex. apply EM. rewrite <- Ex. now apply in_map. }
    repeat (split; [now auto|]). auto.
  - intros (<- & L & EC & E1 & T1 & F & EF & E3 & E4 & T2 & C).
    assert (EM : mem (st_iss ec) (map st_sub (e :: below)) = false).
    { apply mem_nIn. intros Hin. apply in_map_iff in Hin. destruct Hin as (x & Ex & Hx). exact (L x Hx Ex). }
    rewrite EM, EC, E1, String.eqb_refl. apply valid_at_spec in T1, T2. rewrite T1. cbn [negb andb orb].
    apply String.eqb_neq in F. rewrite F, EF, E3, E4, !String.eqb_refl, T2. cbn [negb andb orb].
    now rewrite (proj2 (check_constraints_spec w types e below (st_constraints s) ST) C).
Qed.

(** ** The loop over the hints *)

Lemma hints_loop_spec step rec i hs x ts x' :
  hints_loop step rec i hs x = Some (ts, x') ->
  List.length ts = List.length hs /\
  forall k a t, nth_error hs k = Some a -> nth_error ts k = Some t ->
    (step (i + k) a = None /\ t = zero_tree) \/
    (exists ec s, step (i + k) a = Some (ec, s) /\ rec (i + k) a ec s = Some t).
Proof.
  revert i x ts x'. induction hs as [|h hs IH]; intros i x ts x'; cbn [hints_loop].
  - intros [= <- <-]. split; auto. intros [|k] a t; discriminate.
  - destruct (step i h) as [[ec s]|] eqn:ES.
    + destruct (rec i h ec s) as [t0|] eqn:ER; [|discriminate].
      destruct (hints_loop step rec (S i) hs _) as [[ts' x'']|] eqn:EL; [|discriminate].
      intros [= <- <-]. destruct (IH _ _ _ _ EL) as [IL IN]. split; [simpl; now rewrite IL|].
      intros [|k] a t; simpl.
      * intros [= <-] [= <-]. right. rewrite Nat.add_0_r. eauto.
      * intros Ha Ht. replace (i + S k) with (S i + k) by lia. eauto.
    + destruct (hints_loop step rec (S i) hs _) as [[ts' x'']|] eqn:EL; [|discriminate].
      intros [= <- <-]. destruct (IH _ _ _ _ EL) as [IL IN]. split; [simpl; now rewrite IL|].
      intros [|k] a t; simpl.
      * intros [= <-] [= <-]. left. rewrite Nat.add_0_r. eauto.
      * intros Ha Ht. replace (i + S k) with (S i + k) by lia. eauto.
Qed.

(** ** Unfolding the nested recursions *)

Fixpoint verify_auths (w : world) (tas : list anchor) (e sub : option stmt) (l : list tree) : res (list tree) :=
  match l with
  | [] => Ok []
  | a :: r =>
      '(b, a') <- verify_sigs w tas a ;;
      k <- (if b then keep_authority w e sub a' else Ok false) ;;
      r' <- verify_auths w tas e sub r ;;
      Ok (if k then a' :: r' else r')
  end.

Definition verify_rest (w : world) (tas : list anchor) (t : tree) : res (bool * tree) :=
  match t_auth t with
  | None => Ok (false, t)
  | Some l =>
      l' <- verify_auths w tas (t_entity t) (t_sub t) l ;;
      Ok (match l' with [] => false | _ => true end, Tree (t_entity t) (t_sub t) (Some l') (t_exp t))
  end.

Lemma verify_sigs_eq w tas t :
  verify_sigs w tas t =
  match t_sub t with
  | None => verify_rest w tas t
  | Some s =>
      match t_entity t with
      | None => match tas with [] => verify_rest w tas t | _ => Panic end
      | Some en =>
          match anchor_keys tas en s with
          | Some ks => Ok (verify w en ks && verify w s ks, t)
          | None => verify_rest w tas t
          end
      end
  end.
Proof.
  destruct t as [e sub auth x]. destruct auth as [l|]; [|reflexivity].
  cbn [verify_sigs t_sub t_entity t_auth].
  assert (G : forall l,
    (fix go (l : list tree) : res (list tree) :=
       match l with
       | [] => Ok []
       | a :: r =>
           '(b, a') <- verify_sigs w tas a ;;
           k <- (if b then keep_authority w e sub a' else Ok false) ;;
           r' <- go r ;;
           Ok (if k then a' :: r' else r')
       end) l = verify_auths w tas e sub l).
  { intros l0. induction l0 as [|a l0 IH]; [reflexivity|]. cbn [verify_auths].
    destruct (verify_sigs w tas a) as [[b a']| |]; cbn [bind]; try reflexivity.
    destruct (if b then _ else _); cbn [bind]; try reflexivity. now rewrite IH. }
  rewrite G. reflexivity.
Qed.

Lemma tree_chains_eq t :
  tree_chains t =
  let here := match t_sub t with Some s => [s] | None => match t_entity t with Some s => [s] | None => [] end end in
  match t_auth t with
  | None => match t_sub t, t_entity t with
            | None, None => []
            | None, Some en => [[en]]
            | Some s, Some en => [[s; en]]
            | Some s, None => [[s]]
            end
  | Some l => flat_map (fun a => map (fun c => (here ++ c)%list) (tree_chains a)) l
  end.
Proof.
  destruct t as [e sub auth x]. destruct auth as [l|]; [|reflexivity].
  cbn [tree_chains t_sub t_entity t_auth]. cbv zeta.
  induction l as [|a l IH]; [reflexivity|]. cbn [flat_map]. now rewrite <- IH.
Qed.

Lemma anchor_keys_spec tas e s ks :
  st_sub e = st_iss e -> st_iss s = st_iss e ->
  anchor_keys tas e s = Some ks <-> trusted_keys tas e ks.
Proof.
  intros E1 E2. unfold anchor_keys, trusted_keys. rewrite E1, E2.
  induction tas as [|ta tas IH].
  - cbn. split; [discriminate|]. now intros ([|? ?] & ? & ? & [=] & _).
  - cbn [find]. destruct (String.eqb_spec (ta_id ta) (st_iss e)) as [E|N]; cbn [andb].
    + split.
      * intros [= <-]. exists [], ta, tas. split; [reflexivity|]. split; [exact E|].
        split; [intros x []|now destruct (ta_jwks ta)].
      * intros ([|y pre] & ta' & post & Eq & Ht & Hpre & ->).
        -- injection Eq as -> _. now destruct (ta_jwks ta').
        -- injection Eq as <- _. exfalso. apply (Hpre ta); simpl; auto.
    + rewrite IH. split.
      * intros (pre & ta' & post & -> & Ht & Hpre & ->). exists (ta :: pre), ta', post.
        repeat split; auto. intros x [<-|Hx]; auto.
      * intros ([|y pre] & ta' & post & Eq & Ht & Hpre & ->).
        -- injection Eq as -> _. contradiction.
        -- injection Eq as <- ->. exists pre, ta', post. repeat split; auto.
           intros x Hx. apply Hpre. simpl; auto.
Qed.

Lemma trusted_keys_ex tas e : (exists ks, trusted_keys tas e ks) <-> In (st_iss e) (anchor_ids tas).
Proof.
  unfold anchor_ids. split.
  - intros (ks & pre & ta & post & -> & E & _). rewrite map_app. apply in_app_iff. right. now left.
  - induction tas as [|ta tas IH]; [intros []|].
    destruct (String.eqb_spec (ta_id ta) (st_iss e)) as [E|N].
    + intros _. eexists. exists [], ta, tas. split; [reflexivity|]. split; [exact E|].
      split; [intros x []|reflexivity].
    + intros [E|Hin]; [contradiction|]. destruct (IH Hin) as (ks & pre & ta' & post & -> & E & Hp & Ek).
      exists ks, (ta :: pre), ta', post. repeat split; auto. intros x [<-|]; auto.
Qed.

(** ** Verified authorities *)

Lemma verify_zero w tas : verify_sigs w tas zero_tree = Ok (false, zero_tree).
Proof. reflexivity. Qed.

(** What is known about a node other than the root. *)
Definition node_ok (w : world) (tas : list anchor) (p : list nat) (e : stmt) (below : list stmt) (s : stmt) (t : tree) : Prop :=
  exists b t', verify_sigs w tas t = Ok (b, t') /\ t_sub t' = Some s /\
    forall c, (b = true /\ In c (tree_chains t')) <->
              exists hs, path_up w tas p e below hs /\ signed_up w tas e (Some s) hs /\
                         c = (s :: map h_sub hs ++ [top e hs])%list.

Lemma auths_chains w tas p e below sub (here : stmt) step hs ts :
  List.length ts = List.length hs ->
  (forall i a ec s, nth_error hs i = Some a -> step i a = Some (ec, s) <-> hop_ok w (i :: p) e below a ec s) ->
  (forall k a t, nth_error hs k = Some a -> nth_error ts k = Some t ->
     (step k a = None /\ t = zero_tree) \/
     (exists ec s, step k a = Some (ec, s) /\ node_ok w tas (k :: p) ec (e :: below) s t)) ->
  exists l', verify_auths w tas (Some e) sub ts = Ok l' /\
    forall c, In c (flat_map (fun a => map (fun c => (here :: c)) (tree_chains a)) l') <->
      exists i a ec s hs', nth_error hs i = Some a /\ hop_ok w (i :: p) e below a ec s /\
        path_up w tas (i :: p) ec (e :: below) hs' /\ signed_up w tas e sub (Hop i ec s :: hs') /\
        c = (here :: s :: map h_sub hs' ++ [top ec hs'])%list.
Proof.
  intros HL HS HT.
  (* generalise over the starting position *)
  assert (G : forall ts hs n,
    List.length ts = List.length hs ->
    (forall i a ec s, nth_error hs i = Some a -> step (n + i) a = Some (ec, s) <-> hop_ok w (n + i :: p) e below a ec s) ->
    (forall k a t, nth_error hs k = Some a -> nth_error ts k = Some t ->
       (step (n + k) a = None /\ t = zero_tree) \/
       (exists ec s, step (n + k) a = Some (ec, s) /\ node_ok w tas (n + k :: p) ec (e :: below) s t)) ->
    exists l', verify_auths w tas (Some e) sub ts = Ok l' /\
      forall c, In c (flat_map (fun a => map (fun c => (here :: c)) (tree_chains a)) l') <->
        exists i a ec s hs', nth_error hs i = Some a /\ hop_ok w (n + i :: p) e below a ec s /\
          path_up w tas (n + i :: p) ec (e :: below) hs' /\ signed_up w tas e sub (Hop (n + i) ec s :: hs') /\
          c = (here :: s :: map h_sub hs' ++ [top ec hs'])%list).
  { clear. induction ts as [|t ts IH]; intros [|a hs] n HL HS HT; try discriminate.
    - exists []. split; [reflexivity|]. intros c. cbn. split; [intros []|].
      intros ([|i] & ? & ? & ? & ? & [=] & _).
    - destruct (IH hs (S n)) as (l' & EL & HC); clear IH.
      { now injection HL. }
      { intros i b ec s Hi. replace (S n + i) with (n + S i) by lia. now apply HS. }
      { intros k b t' Hk Ht. replace (S n + k) with (n + S k) by lia. now apply HT. }
      cbn [verify_auths].
      pose proof (HT 0 a t eq_refl eq_refl) as H0. rewrite Nat.add_0_r in H0.
      pose proof (fun ec s => HS 0 a ec s eq_refl) as S0. rewrite Nat.add_0_r in S0.
      assert (HC' : forall c, In c (flat_map (fun a => map (fun c => (here :: c)) (tree_chains a)) l') <->
        exists i b ec s hs', nth_error (a :: hs) (S i) = Some b /\ hop_ok w (n + S i :: p) e below b ec s /\
          path_up w tas (n + S i :: p) ec (e :: below) hs' /\ signed_up w tas e sub (Hop (n + S i) ec s :: hs') /\
          c = (here :: s :: map h_sub hs' ++ [top ec hs'])%list).
      { intros c. rewrite HC. split; intros (i & b & ec & s & hs' & H).
        - exists i, b, ec, s, hs'. replace (n + S i) with (S n + i) by lia. exact H.
        - exists i, b, ec, s, hs'. replace (n + S i) with (S n + i) in H by lia. exact H. }
      clear HC.
      destruct H0 as [[EN ->]|(ec & s & ES & b & t' & EV & Esub & HN)].
      + rewrite verify_zero. cbn [bind]. rewrite EL. cbn [bind]. exists l'. split; auto.
        intros c. rewrite HC'. split.
        * intros (i & b & ec & s & hs' & H). exists (S i), b, ec, s, hs'. exact H.
        * intros ([|i] & b & ec & s & hs' & H & H').
          -- injection H as <-. destruct H' as [H' _]. rewrite Nat.add_0_r in H'. apply S0 in H'. congruence.
          -- exists i, b, ec, s, hs'. split; auto.
      + rewrite EV. cbn [bind].
        assert (HK : exists k, (if b then keep_authority w (Some e) sub t' else Ok false) = Ok k /\
                     (k = true <-> b = true /\ signed_by w e (st_jwks s) /\ forall s', sub = Some s' -> signed_by w s' (st_jwks s))).
        { destruct b.
          - unfold keep_authority. rewrite Esub. eexists. split; [reflexivity|].
            rewrite andb_true_iff, verify_spec. destruct sub as [s'|].
            + rewrite verify_spec. split; [intros [? ?]; repeat split; auto; now intros ? [= <-]|intros (_ & ? & H); auto].
            + split; [intros [? _]; repeat split; auto; now intros ? [=]|intros (_ & ? & _); auto].
          - exists false. split; auto. split; [discriminate|now intros [? _]]. }
        destruct HK as (k & EK & HK). rewrite EK. cbn [bind]. rewrite EL. cbn [bind].
        exists (if k then t' :: l' else l'). split; auto.
        intros c.
        assert (H0 : (k = true /\ exists c0, In c0 (tree_chains t') /\ c = here :: c0) <->
                 exists hs', path_up w tas (n :: p) ec (e :: below) hs' /\ signed_up w tas e sub (Hop n ec s :: hs') /\
                   c = (here :: s :: map h_sub hs' ++ [top ec hs'])%list).
        { split.
          - intros (Ek & c0 & Hc0 & ->). apply HK in Ek. destruct Ek as (Eb & V1 & V2).
            destruct (proj1 (HN c0) (conj Eb Hc0)) as (hs' & P & Sg & ->).
            exists hs'. repeat split; auto. constructor; auto.
          - intros (hs' & P & Sg & ->). inversion Sg; subst.
            destruct (proj2 (HN (s :: map h_sub hs' ++ [top ec hs'])%list)) as (Eb & Hc).
            { exists hs'. auto. }
            split; [apply HK; auto|]. eauto. }
        transitivity ((k = true /\ exists c0, In c0 (tree_chains t') /\ c = here :: c0) \/
                      In c (flat_map (fun a => map (fun c => (here :: c)) (tree_chains a)) l')).
        { destruct k.
          - cbn [flat_map]. rewrite in_app_iff, in_map_iff. split.
            + intros [(c0 & <- & H)|H]; eauto.
            + intros [(_ & c0 & H & ->)|H]; eauto.
          - split; [now right|]. intros [[[=] _]|H]; auto. }
        rewrite H0, HC'. split.
        * intros [(hs' & P & Sg & ->)|(i & a' & ec' & s' & hs' & H)].
          -- exists 0, a, ec, s, hs'. rewrite Nat.add_0_r. apply S0 in ES. auto.
          -- exists (S i), a', ec', s', hs'. exact H.
        * intros ([|i] & a' & ec' & s' & hs' & Ha & Ho & P & Sg & ->).
          -- left. injection Ha as <-. rewrite Nat.add_0_r in *. apply S0 in Ho. rewrite ES in Ho.
             injection Ho as <- <-. exists hs'. auto.
          -- right. exists i, a', ec', s', hs'. auto. }
  apply (G ts hs 0); auto.
Qed.

(** ** The tree below the root *)

Lemma path_hop_iff w tas p e below hs :
  ~ In (st_iss e) (anchor_ids tas) ->
  path_up w tas p e below hs <->
  exists i a ec s hs', hs = Hop i ec s :: hs' /\ nth_error (st_hints e) i = Some a /\
    hop_ok w (i :: p) e below a ec s /\ path_up w tas (i :: p) ec (e :: below) hs'.
Proof.
  intros N. split.
  - intros H. inversion H; subst; [contradiction|].
    exists i, (st_iss ec), ec, s, hs0. unfold hop_ok. repeat (split; [now auto|]). auto.
  - intros (i & a & ec & s & hs' & -> & Ha & (<- & ? & ? & ? & ? & ? & ? & ? & ? & ? & ?) & P).
    now constructor.
Qed.

Lemma same_types_up types e below ec :
  same_types types (e :: below) -> same_types (types ++ types_of ec)%list (ec :: e :: below).
Proof.
  intros H t. rewrite in_app_iff, (H t). cbn [flat_map]. rewrite !in_app_iff. tauto.
Qed.

Definition inner (e s : stmt) : Prop := st_sub e = st_iss e /\ st_iss s = st_iss e.

Lemma resolve_node fuel w tas p e below types s t :
  same_types types (e :: below) -> inner e s ->
  resolve fuel w tas p (List.length below) types (map st_sub (e :: below)) e (Some s) = Some t ->
  node_ok w tas p e below s t.
Proof.
  revert p e below types s t. induction fuel as [|f IH]; intros p e below types s t ST [I1 I2]; [discriminate|].
  cbn [resolve].
  set (x := if before (st_exp e) zero_time then st_exp e else zero_time). clearbody x.
  destruct (mem (st_iss e) (anchor_ids tas)) eqn:EM.
  - intros [= <-]. apply mem_In in EM. destruct (proj2 (trusted_keys_ex tas e) EM) as (ks & TK).
    pose proof (proj2 (anchor_keys_spec tas e s ks I1 I2) TK) as EK.
    eexists _, _. rewrite verify_sigs_eq. cbn [t_sub t_entity]. rewrite EK. split; [reflexivity|].
    split; [reflexivity|]. intros c. rewrite tree_chains_eq. cbn [t_sub t_entity t_auth].
    rewrite andb_true_iff, !verify_spec. split.
    + intros [[V1 V2] [<-|[]]]. exists []. split; [now constructor|]. split; [|reflexivity].
      econstructor; eauto.
    + intros (hs & P & Sg & ->). inversion P; subst; [|contradiction].
      inversion Sg as [e0 s0 ks0 TK0 V1 V2|]; subst. split; [|now left].
      assert (ks0 = ks); [|subst; auto].
      apply (anchor_keys_spec tas e s) in TK0; auto. congruence.
  - apply mem_nIn in EM.
    assert (EK : anchor_keys tas e s = None).
    { destruct (anchor_keys tas e s) as [ks|] eqn:E; auto.
      apply anchor_keys_spec in E; auto. exfalso. apply EM. apply trusted_keys_ex. eauto. }
    destruct (st_hints e) as [|h0 hs0] eqn:EH.
    + intros [= <-]. eexists _, _. rewrite verify_sigs_eq. cbn [t_sub t_entity]. rewrite EK. unfold verify_rest.
      cbn [t_auth]. split; [reflexivity|]. split; [reflexivity|]. intros c. split; [intros [[=] _]|].
      intros (hs & P & _). inversion P; subst; [contradiction|].
      rewrite EH in *. destruct i; discriminate.
    + rewrite <- EH. clear h0 hs0 EH.
      destruct (hints_loop _ _ 0 (st_hints e) x) as [[ts x']|] eqn:EL; [|discriminate].
      intros [= <-]. apply hints_loop_spec in EL. destruct EL as [HL HT]. cbn [Nat.add] in HT.
      destruct (auths_chains w tas p e below (Some s) s
                  (fun i a => hint_step w (i :: p) e (List.length below) types (map st_sub (e :: below)) a)
                  (st_hints e) ts HL) as (l' & EV & HC).
      { intros i a ec s' Ha. now apply hint_step_spec. }
      { intros k a t Ha Ht. destruct (HT k a t Ha Ht) as [[E ->]|(ec & s' & E & ER)].
        - left. auto.
        - right. exists ec, s'. split; auto. apply hint_step_spec in E; auto.
          destruct E as (<- & L & EC & E1 & E).
          eapply (IH (k :: p) ec (e :: below) (types ++ types_of ec)%list s' t).
          + now apply same_types_up.
          + split; [auto|]. tauto.
          + cbn [map]. rewrite E1. cbn [map] in ER. exact ER. }
      eexists _, _. rewrite verify_sigs_eq. cbn [t_sub t_entity]. rewrite EK. unfold verify_rest.
      cbn [t_auth t_sub t_entity t_exp]. rewrite EV. cbn [bind]. split; [reflexivity|]. split; [reflexivity|].
      intros c. rewrite tree_chains_eq. cbn [t_sub t_entity t_auth app]. cbv zeta.
      specialize (HC c).
      transitivity (In c (flat_map (fun a => map (fun c => s :: c) (tree_chains a)) l')).
      { split; [now intros [_ ?]|]. intros H. split; auto. destruct l'; [destruct H|auto]. }
      rewrite HC. split.
      * intros (i & a & ec & s' & hs' & Ha & Ho & P & Sg & ->).
        exists (Hop i ec s' :: hs'). split; [|split; [exact Sg|reflexivity]].
        apply path_hop_iff; auto. exists i, a, ec, s', hs'. auto.
      * intros (hs & P & Sg & ->). apply path_hop_iff in P; auto.
        destruct P as (i & a & ec & s' & hs' & -> & Ha & Ho & P). exists i, a, ec, s', hs'. auto.
Qed.

(** ** The root *)

(** The chains for the starting entity with configuration [e]. *)
Definition root_chain (w : world) (tas : list anchor) (e : stmt) (c : chain) : Prop :=
  (c = [e] /\ (In (st_iss e) (anchor_ids tas) \/ st_hints e = [])) \/
  (exists h hs, path_up w tas [] e [] (h :: hs) /\ signed_up w tas e None (h :: hs) /\ c = chain_along e (h :: hs)).

Lemma resolve_root fuel w tas e types t :
  same_types types [e] ->
  resolve fuel w tas [] 0 types [st_sub e] e None = Some t ->
  exists b t', verify_sigs w tas t = Ok (b, t') /\ forall c, In c (tree_chains t') <-> root_chain w tas e c.
Proof.
  destruct fuel as [|f]; [discriminate|]. intros ST. cbn [resolve].
  set (x := if before (st_exp e) zero_time then st_exp e else zero_time). clearbody x.
  destruct (mem (st_iss e) (anchor_ids tas)) eqn:EM.
  - intros [= <-]. apply mem_In in EM. eexists _, _. split; [reflexivity|]. intros c. cbn. unfold root_chain. split.
    + intros [<-|[]]. auto.
    + intros [[-> _]|(h & hs & P & _)]; auto. inversion P; subst. contradiction.
  - apply mem_nIn in EM. destruct (st_hints e) as [|h0 hs0] eqn:EH.
    + intros [= <-]. eexists _, _. split; [reflexivity|]. intros c. cbn. unfold root_chain. split.
      * intros [<-|[]]. auto.
      * intros [[-> _]|(h & hs & P & _)]; auto. inversion P; subst. rewrite EH in *. destruct i; discriminate.
    + assert (NE : st_hints e <> []) by now rewrite EH.
      rewrite <- EH. clear h0 hs0 EH.
      destruct (hints_loop _ _ 0 (st_hints e) x) as [[ts x']|] eqn:EL; [|discriminate].
      intros [= <-]. apply hints_loop_spec in EL. destruct EL as [HL HT]. cbn [Nat.add] in HT.
      destruct (auths_chains w tas [] e [] None e
                  (fun i a => hint_step w [i] e 0 types [st_sub e] a)
                  (st_hints e) ts HL) as (l' & EV & HC).
      { intros i a ec s' Ha. now apply (hint_step_spec w [i] e []). }
      { intros k a t Ha Ht. destruct (HT k a t Ha Ht) as [[E ->]|(ec & s' & E & ER)].
        - left. auto.
        - right. exists ec, s'. split; auto. apply (hint_step_spec w [k] e []) in E; auto.
          destruct E as (<- & L & EC & E1 & E).
          eapply (resolve_node f w tas [k] ec [e] (types ++ types_of ec)%list s' t).
          + now apply same_types_up.
          + split; [auto|]. tauto.
          + cbn [map]. rewrite E1. exact ER. }
      eexists _, _. rewrite verify_sigs_eq. cbn [t_sub t_entity]. unfold verify_rest.
      cbn [t_auth t_sub t_entity t_exp]. rewrite EV. cbn [bind]. split; [reflexivity|].
      intros c. rewrite tree_chains_eq. cbn [t_sub t_entity t_auth app]. cbv zeta.
      rewrite (HC c). unfold root_chain. split.
      * intros (i & a & ec & s' & hs' & Ha & Ho & P & Sg & ->). right.
        exists (Hop i ec s'), hs'. split; [|split; [exact Sg|reflexivity]].
        apply path_hop_iff; auto. exists i, a, ec, s', hs'. auto.
      * intros [[_ [?|?]]|(h & hs & P & Sg & ->)]; try contradiction.
        apply path_hop_iff in P; auto.
        destruct P as (i & a & ec & s' & hs' & [= -> ->] & Ha & Ho & P). exists i, a, ec, s', hs'. auto.
Qed.

Lemma types_of_with s m : types_of (with_metadata s (Some m)) = guess_entity_types m.
Proof. reflexivity. Qed.

(** The outcome of the resolution, completely. *)
Theorem resolve_chains_spec fuel w tas types start cs :
  resolve_chains fuel w tas types start = Done (Ok cs) ->
  forall c, In c cs <-> exists e, start_config w types start e /\ root_chain w tas e c.
Proof.
  unfold resolve_chains, resolve_tree. intros H c.
  destruct (String.eqb_spec start "") as [->|NS].
  { cbn in H. injection H as <-. split; [intros []|]. intros (e & (N & _) & _). contradiction. }
  destruct (w_config w [] start) as [s|] eqn:EC.
  2: { cbn in H. injection H as <-. split; [intros []|]. intros (e & (_ & s & m & E & _) & _). congruence. }
  destruct (st_metadata s) as [m|] eqn:EMd.
  2: { discriminate. }
  set (m' := match types with [] => m | _ => nil_all_except m types end) in *.
  destruct (resolve fuel w tas [] 0 (guess_entity_types m') _ _ None) as [t|] eqn:ER; [|discriminate].
  apply resolve_root in ER.
  2: { intros t'. cbn [flat_map]. now rewrite types_of_with, app_nil_r. }
  destruct ER as (b & t' & EV & HC). cbn [bind] in H. rewrite EV in H. cbn [bind] in H. injection H as <-.
  rewrite HC. split.
  - intros R. exists (with_metadata s (Some m')). split; auto. split; auto. exists s, m. auto.
  - intros (e & (_ & s' & m0 & E & E' & ->) & R). rewrite EC in E. injection E as <-. rewrite EMd in E'. injection E' as <-.
    exact R.
Qed.

Theorem resolve_chains_no_panic fuel w tas types start :
  (start <> "" -> forall s, w_config w [] start = Some s -> st_metadata s <> None) ->
  resolve_chains fuel w tas types start <> OutOfFuel ->
  exists cs, resolve_chains fuel w tas types start = Done (Ok cs).
Proof.
  unfold resolve_chains, resolve_tree. intros HM HF.
  destruct (String.eqb_spec start "") as [->|NS]; [cbn; eauto|].
  destruct (w_config w [] start) as [s|] eqn:EC; [|cbn; eauto].
  specialize (HM NS s eq_refl).
  destruct (st_metadata s) as [m|] eqn:EMd; [|contradiction].
  set (m' := match types with [] => m | _ => nil_all_except m types end) in *.
  destruct (resolve fuel w tas [] 0 (guess_entity_types m') _ _ None) as [t|] eqn:ER; [|contradiction].
  apply resolve_root in ER.
  2: { intros t'. cbn [flat_map]. now rewrite types_of_with, app_nil_r. }
  destruct ER as (b & t' & EV & HC). cbn [bind]. rewrite EV. cbn [bind]. eauto.
Qed.
