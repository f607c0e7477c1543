(** Proofs about Alias.v: the functions on slice headers compute what the functions on
    values compute, and write only where no statement can see it. *)
From Verif Require Import Base BaseFacts GoVal Policy Schema Metadata Chain Alias SpecAlias.
Local Open Scope nat_scope.
Local Open Scope list_scope.

(** ** What a computation may write *)

(** [h'] comes from [h] by allocations and by writes, to arrays of uses in [W], beyond the
    slices of statements; arrays allocated before address [n0] are not written unless
    they belong to a statement. *)
Definition ext (n0 : nat) (W : slot -> Prop) (h h' : heap) : Prop :=
  (List.length h <= List.length h' /\
   forall a c', nth_error h' a = Some c' -> List.length h <= a -> c_base c' = None) /\
  forall a c, nth_error h a = Some c -> exists c', nth_error h' a = Some c' /\
    c_slot c' = c_slot c /\ c_base c' = c_base c /\ List.length (c_data c') = List.length (c_data c) /\
    (forall b, c_base c = Some b -> firstn b (c_data c') = firstn b (c_data c)) /\
    (~ W (c_slot c) -> c_data c' = c_data c) /\
    (c_base c = None -> a < n0 -> c_data c' = c_data c).

Lemma ext_refl n0 W h : ext n0 W h h.
Proof.
  split; [split; [lia|]|].
  - intros a c E L. apply nth_error_None in L. congruence.
  - intros a c H. exists c. repeat split; auto.
Qed.

Lemma ext_trans n0 W h1 h2 h3 : ext n0 W h1 h2 -> ext n0 W h2 h3 -> ext n0 W h1 h3.
Proof.
  intros [[L1 F1] H1] [[L2 F2] H2]. split; [split; [lia|]|].
  { intros a c3 E La. destruct (nth_error h2 a) as [c2|] eqn:E2.
    - specialize (F1 a c2 E2 La). destruct (H2 a c2 E2) as (c' & E' & _ & B & _). congruence.
    - apply nth_error_None in E2. eauto. }
  intros a c H.
  destruct (H1 a c H) as (c' & E & S & B & D & P & N & O).
  destruct (H2 a c' E) as (c2 & E2 & S2 & B2 & D2 & P2 & N2 & O2).
  exists c2. split; [exact E2|]. split; [congruence|]. split; [congruence|]. split; [congruence|].
  split; [|split].
  - intros b Hb. rewrite <- (P b Hb). apply P2. congruence.
  - intros NW. rewrite <- (N NW). apply N2. congruence.
  - intros HB Ha. rewrite <- (O HB Ha). apply O2; congruence.
Qed.

Lemma ext_weaken n0 (W W' : slot -> Prop) h h' : (forall L, W L -> W' L) -> ext n0 W h h' -> ext n0 W' h h'.
Proof.
  intros HW [L H]. split; [exact L|]. intros a c E. destruct (H a c E) as (c' & ? & ? & ? & ? & ? & N & ?).
  exists c'. repeat split; auto.
Qed.

Lemma ext_length n0 W h h' : ext n0 W h h' -> List.length h <= List.length h'.
Proof. now intros [[L _] _]. Qed.

(** A header usable at [L]: its array is noted for that use; on an array of a statement it
    is at least as long as the statement's slice; other arrays are new. *)
Definition okv (n0 : nat) (L : slot) (h : heap) (x : hval) : Prop :=
  match x with
  | HV v => nil_empty v
  | HS t a n => exists c, nth_error h a = Some c /\ c_slot c = L /\ n <= List.length (c_data c) /\
      match c_base c with Some b => b <= n | None => n0 <= a end
  end.

Lemma placed_okv n0 L h x : placed h L x -> okv n0 L h x.
Proof.
  destruct x as [v|t a n]; cbn; [auto|]. intros (d & E & Ln). exists (Cell L (Some n) d). cbn. auto.
Qed.

Lemma data_nth h a c : nth_error h a = Some c -> data_at h a = c_data c.
Proof. unfold data_at. now intros ->. Qed.

Lemma ext_placed n0 W h h' L x : ext n0 W h h' -> placed h L x -> placed h' L x /\ read h' x = read h x.
Proof.
  intros [_ X]. destruct x as [v|t a n]; cbn; [auto|]. intros (d & E & Ln).
  destruct (X a _ E) as ([s b d'] & E' & S & B & D & P & _). cbn in *. subst s b.
  split.
  - exists d'. split; [exact E'|]. lia.
  - rewrite (data_nth _ _ _ E'), (data_nth _ _ _ E). cbn. now rewrite (P n eq_refl).
Qed.

Lemma ext_okv n0 (W : slot -> Prop) h h' L x : ext n0 W h h' -> ~ W L -> okv n0 L h x -> okv n0 L h' x /\ read h' x = read h x.
Proof.
  intros [_ X] NW. destruct x as [v|t a n]; cbn; [auto|]. intros (c & E & S & Ln & B).
  destruct (X a _ E) as (c' & E' & S' & B' & D & P & N & _). subst L. split.
  - exists c'. rewrite E', S', B', D. auto.
  - rewrite (data_nth _ _ _ E'), (data_nth _ _ _ E). now rewrite (N NW).
Qed.

(** ** Agreement of a computation on headers with a computation on values *)

Definition agrees {A B} (n0 : nat) (P : heap -> A -> Prop) (rd : heap -> A -> B) (W : slot -> Prop)
  (h : heap) (m : M A) (p : res B) : Prop :=
  ext n0 W h (snd (m h)) /\
  match fst (m h), p with
  | Ok x, Ok y => P (snd (m h)) x /\ rd (snd (m h)) x = y
  | Err, Err => True
  | Panic, Panic => True
  | _, _ => False
  end.

Lemma agrees_bind {A B C D} n0 (P : heap -> A -> Prop) (rd : heap -> A -> B) (Q : heap -> C -> Prop) (rd' : heap -> C -> D)
  (W1 W : slot -> Prop) h (m : M A) p (f : A -> M C) (g : B -> res D) :
  agrees n0 P rd W1 h m p -> (forall L, W1 L -> W L) ->
  (forall x h', P h' x -> ext n0 W1 h h' -> agrees n0 Q rd' W h' (f x) (g (rd h' x))) ->
  agrees n0 Q rd' W h (bindM m f) (bind p g).
Proof.
  unfold agrees, bindM, bind. intros [X R] HW H. destruct (m h) as [r h']. cbn [fst snd] in *.
  destruct r as [x| |], p as [y| |]; try contradiction; cbn [fst snd]; try (split; [eapply ext_weaken; eauto|exact I]).
  destruct R as [Px <-]. specialize (H x h' Px X). destruct (f x h') as [r2 h2]. cbn [fst snd] in *.
  destruct H as [X2 R2]. split; [eapply ext_trans; [eapply ext_weaken; eauto|eauto]|exact R2].
Qed.

Lemma agrees_ret {A B} n0 (P : heap -> A -> Prop) (rd : heap -> A -> B) W h x y :
  P h x -> rd h x = y -> agrees n0 P rd W h (ret x) (Ok y).
Proof. intros H E. split; [apply ext_refl|]. cbn. auto. Qed.

Lemma agrees_look {A B} n0 (P : heap -> A -> Prop) (rd : heap -> A -> B) W h (f : heap -> res A) p :
  match f h, p with
  | Ok x, Ok y => P h x /\ rd h x = y
  | Err, Err => True
  | Panic, Panic => True
  | _, _ => False
  end -> agrees n0 P rd W h (look f) p.
Proof. intros H. split; [apply ext_refl|exact H]. Qed.

Lemma agrees_look_bind {A C D} n0 (Q : heap -> C -> Prop) (rd' : heap -> C -> D) W h (f : heap -> res A) p
  (g : A -> M C) (g' : A -> res D) :
  f h = p -> (forall x, agrees n0 Q rd' W h (g x) (g' x)) -> agrees n0 Q rd' W h (bindM (look f) g) (bind p g').
Proof.
  intros <- H. unfold agrees, bindM, look, bind. destruct (f h); cbn [fst snd];
    [apply H|split; [apply ext_refl|exact I]|split; [apply ext_refl|exact I]].
Qed.

Lemma agrees_weaken {A B} n0 (P Q : heap -> A -> Prop) (rd : heap -> A -> B) (W W' : slot -> Prop) h m p :
  agrees n0 P rd W h m p -> (forall L, W L -> W' L) -> (forall h x, P h x -> Q h x) ->
  agrees n0 Q rd W' h m p.
Proof.
  intros [X R] HW HP. split; [eapply ext_weaken; eauto|].
  destruct (fst (m h)), p; auto. destruct R. auto.
Qed.

Lemma agrees_lift {A B} n0 (P : heap -> A -> Prop) (rd : heap -> A -> B) W h m p r :
  m h = (r, h) ->
  match r, p with
  | Ok x, Ok y => P h x /\ rd h x = y
  | Err, Err => True
  | Panic, Panic => True
  | _, _ => False
  end -> agrees n0 P rd W h m p.
Proof. intros E H. split; rewrite E; [apply ext_refl|exact H]. Qed.

(** ** Appending *)

Lemma set_nth_length i v l : List.length (set_nth i v l) = List.length l.
Proof. revert i; induction l as [|x l IH]; intros [|i]; cbn; auto. Qed.

Lemma set_nth_firstn i v l k : k <= i -> firstn k (set_nth i v l) = firstn k l.
Proof.
  revert i k; induction l as [|x l IH]; intros [|i] [|k] H; cbn; auto; try lia. f_equal. apply IH. lia.
Qed.

Lemma set_nth_next i v l : i < List.length l -> firstn (S i) (set_nth i v l) = (firstn i l ++ [v])%list.
Proof.
  revert i; induction l as [|x l IH]; intros [|i] H; cbn in *; try lia; auto.
  f_equal. apply IH. lia.
Qed.

Lemma set_cell_length a i v h : List.length (set_cell a i v h) = List.length h.
Proof. revert a; induction h as [|x h IH]; intros [|a]; cbn; auto. Qed.

Lemma set_cell_same a i v h c : nth_error h a = Some c ->
  nth_error (set_cell a i v h) a = Some (Cell (c_slot c) (c_base c) (set_nth i v (c_data c))).
Proof. revert a; induction h as [|x h IH]; intros [|a]; cbn; try discriminate; auto. now intros [= ->]. Qed.

Lemma set_cell_other a b i v h : a <> b -> nth_error (set_cell a i v h) b = nth_error h b.
Proof. revert a b; induction h as [|x h IH]; intros [|a] [|b] N; cbn; auto; try lia. Qed.

Lemma ext_set_cell n0 a i v h c : nth_error h a = Some c ->
  (forall b, c_base c = Some b -> b <= i) -> (c_base c = None -> n0 <= a) ->
  ext n0 (eq (c_slot c)) h (set_cell a i v h).
Proof.
  intros E B O. split; [split; [now rewrite set_cell_length|]|].
  { intros b d Hd Lb. assert (b < List.length (set_cell a i v h)) by (apply nth_error_Some; congruence).
    rewrite set_cell_length in *. lia. }
  intros b d Hd.
  destruct (Nat.eq_dec a b) as [<- | N].
  - assert (d = c) by congruence. subst d.
    exists (Cell (c_slot c) (c_base c) (set_nth i v (c_data c))). rewrite (set_cell_same _ _ _ _ _ E). cbn.
    split; [reflexivity|]. split; [reflexivity|]. split; [reflexivity|]. split; [apply set_nth_length|].
    split; [|split].
    + intros b0 Hb. apply set_nth_firstn. auto.
    + intros X. now contradiction X.
    + intros HN Hlt. specialize (O HN). lia.
  - exists d. rewrite set_cell_other by assumption. repeat split; auto.
Qed.

Lemma ext_alloc n0 W h L l : ext n0 W h (h ++ [Cell L None l])%list.
Proof.
  split; [split; [rewrite app_length; lia|]|].
  { intros a d E La. rewrite nth_error_app2 in E by assumption. apply nth_error_In in E. destruct E as [<- | []]. reflexivity. }
  intros a d Hd. exists d.
  split; [|repeat split; auto]. rewrite nth_error_app1; [exact Hd|]. apply nth_error_Some. congruence.
Qed.

Section Proofs.
Variable grow : gty -> nat -> nat.

(** One call of reflect.Append. *)
Lemma append_ok n0 L h out t l v :
  n0 <= List.length h -> okv n0 L h out -> read h out = VSlice t false l ->
  okv n0 L (snd (append grow L out v h)) (fst (append grow L out v h)) /\
  read (snd (append grow L out v h)) (fst (append grow L out v h)) = VSlice t false (l ++ [v]) /\
  ext n0 (eq L) h (snd (append grow L out v h)).
Proof.
  intros H0 OK R.
  assert (MV : forall t0 l0, 
     okv n0 L (h ++ [Cell L None ((l0 ++ [v]) ++ repeat VNil (grow t0 (List.length (l0 ++ [v]))))])
         (HS t0 (List.length h) (List.length (l0 ++ [v]))) /\
     read (h ++ [Cell L None ((l0 ++ [v]) ++ repeat VNil (grow t0 (List.length (l0 ++ [v]))))])
         (HS t0 (List.length h) (List.length (l0 ++ [v]))) = VSlice t0 false (l0 ++ [v])).
  { intros t0 l0.
    assert (EN : nth_error (h ++ [Cell L None ((l0 ++ [v]) ++ repeat VNil (grow t0 (List.length (l0 ++ [v]))))]) (List.length h)
             = Some (Cell L None ((l0 ++ [v]) ++ repeat VNil (grow t0 (List.length (l0 ++ [v])))))).
    { rewrite nth_error_app2 by lia. now rewrite Nat.sub_diag. }
    split.
    - cbn [okv]. eexists. split; [exact EN|]. cbn [c_slot c_data c_base]. split; [reflexivity|]. split; [|exact H0].
      rewrite (app_length (l0 ++ [v])). lia.
    - cbn [read]. rewrite (data_nth _ _ _ EN). cbn [c_data].
      rewrite firstn_app, Nat.sub_diag, firstn_O, app_nil_r, firstn_all. reflexivity. }
  destruct out as [u|t' a n].
  - cbn [read] in R. subst u. cbn [append alloc fst snd].
    destruct (MV t l) as [M1 M2]. split; [exact M1|]. split; [exact M2|]. apply ext_alloc.
  - cbn [read] in R. injection R as -> R. destruct OK as (c & E & S & Ln & B).
    rewrite (data_nth _ _ _ E) in R. cbn [append]. rewrite (data_nth _ _ _ E).
    destruct (Nat.ltb_spec n (List.length (c_data c))) as [Lt|Ge].
    + cbn [fst snd]. split; [|split].
      * cbn [okv]. exists (Cell (c_slot c) (c_base c) (set_nth n v (c_data c))).
        split; [now apply set_cell_same|]. cbn. split; [exact S|]. split; [rewrite set_nth_length; lia|].
        destruct (c_base c); [lia|assumption].
      * cbn [read]. rewrite (data_nth _ _ _ (set_cell_same a n v h c E)). cbn [c_data].
        rewrite set_nth_next by assumption. now rewrite R.
      * rewrite <- S. apply ext_set_cell; auto.
        -- intros b Hb. now rewrite Hb in B.
        -- intros Hb. now rewrite Hb in B.
    + cbn [fst snd alloc]. rewrite R. destruct (MV t l) as [M1 M2]. split; [exact M1|]. split; [exact M2|]. apply ext_alloc.
Qed.

(** An operand that writes at [L] leave alone. *)
Definition stable (n0 : nat) (L : slot) (h : heap) (b : hval) : Prop :=
  (exists L', placed h L' b) \/ (exists L', L' <> L /\ okv n0 L' h b).

Lemma ext_stable n0 L h h' b : ext n0 (eq L) h h' -> stable n0 L h b -> stable n0 L h' b /\ read h' b = read h b.
Proof.
  intros X [(L' & P)|(L' & N & O)].
  - destruct (ext_placed _ _ _ _ _ _ X P) as [P' R]. split; [left; eauto|exact R].
  - destruct (ext_okv _ _ _ _ _ _ X (fun e => N (eq_sym e)) O) as [O' R]. split; [right; eauto|exact R].
Qed.

Lemma union_from_ok n0 L b is : forall h out t l,
  n0 <= List.length h -> okv n0 L h out -> stable n0 L h b -> read h out = VSlice t false l ->
  let '(out', h') := union_from grow L b is out h in
  okv n0 L h' out' /\ ext n0 (eq L) h h' /\
  read h' out' = VSlice t false (union_loop l (map (fun i => nth i (elems_of (read h b)) VNil) is)).
Proof.
  induction is as [|i is IH]; intros h out t l H0 OK ST R; cbn [union_from map union_loop].
  - split; [exact OK|]. split; [apply ext_refl|exact R].
  - rewrite R. cbn [elems_of].
    destruct (existsb (deep_eq (nth i (elems_of (read h b)) VNil)) l) eqn:EX; [now apply IH|].
    destruct (append_ok n0 L h out t l (nth i (elems_of (read h b)) VNil) H0 OK R) as (O1 & R1 & X1).
    destruct (append grow L out (nth i (elems_of (read h b)) VNil) h) as [out1 h1]. cbn [fst snd] in *.
    destruct (ext_stable _ _ _ _ _ X1 ST) as [ST1 RB].
    specialize (IH h1 out1 t _ (Nat.le_trans _ _ _ H0 (ext_length _ _ _ _ X1)) O1 ST1 R1).
    rewrite RB in IH. destruct (union_from grow L b is out1 h1) as [out2 h2].
    destruct IH as (O2 & X2 & R2). split; [exact O2|]. split; [eapply ext_trans; eauto|exact R2].
Qed.

Lemma nth_seq (l : list gval) : map (fun i => nth i l VNil) (seq 0 (List.length l)) = l.
Proof.
  induction l as [|x l IH]; [reflexivity|]. cbn [List.length seq map nth]. f_equal.
  rewrite <- seq_shift, map_map. exact IH.
Qed.

Lemma read_slicify h x : read h (hslicify x) = slicify (read h x).
Proof. now destruct x. Qed.

Lemma slicify_nil_empty v : nil_empty v -> nil_empty (slicify v).
Proof. destruct v; cbn; auto. Qed.

Lemma okv_slicify n0 L h x : okv n0 L h x -> okv n0 L h (hslicify x).
Proof. destruct x as [v|]; cbn; [apply slicify_nil_empty|auto]. Qed.

Lemma stable_slicify n0 L h x : stable n0 L h x -> stable n0 L h (hslicify x).
Proof.
  destruct x as [v|]; [|auto]. intros [(L' & P)|(L' & N & O)]; [left|right]; exists L'; cbn in *;
    [|split; [exact N|]]; now apply slicify_nil_empty.
Qed.

Lemma okv_read n0 L h x t n l : okv n0 L h x -> read h x = VSlice t n l -> l <> [] -> n = false.
Proof.
  destruct x as [v|]; cbn.
  - intros O -> N. destruct n; [|reflexivity]. destruct l; [contradiction|]. cbn in O. contradiction.
  - intros _ [= _ <- _] _. reflexivity.
Qed.

Lemma cast_nil_empty s nt v : slice_cast s nt = Ok v -> nil_empty s -> nil_empty v.
Proof.
  unfold slice_cast. destruct s; try (intros [= <-]; exact (fun x => x)).
  destruct (typeof nt) as [[]|]; try discriminate. intros H. apply bind_ok in H as (l' & _ & [= <-]). cbn. auto.
Qed.

Lemma stable_HV n0 L h v : nil_empty v -> stable n0 L h (HV v).
Proof. intros H. left. exists L. exact H. Qed.

Lemma hunion_ok n0 L h a b : n0 <= List.length h -> okv n0 L h a -> stable n0 L h b ->
  agrees n0 (okv n0 L) read (eq L) h (hunion grow L a b) (union (read h a) (read h b)).
Proof.
  intros H0 OA SB. apply okv_slicify in OA. apply stable_slicify in SB.
  unfold agrees, hunion, union. rewrite <- !read_slicify.
  set (a' := hslicify a) in *. set (b' := hslicify b) in *. clearbody a' b'.
  destruct (read h a') as [| | | | | | |ta na la] eqn:RA; try (cbn; split; [apply ext_refl|exact I]).
  destruct (read h b') as [| | | | | | |tb nb lb] eqn:RB; try (cbn; split; [apply ext_refl|exact I]).
  destruct lb as [|y lb].
  { cbn. split; [apply ext_refl|]. auto. }
  destruct la as [|x la].
  { cbn [fst snd]. split; [apply ext_refl|].
    destruct (slice_cast (VSlice tb nb (y :: lb)) (VSlice ta na [])) as [r| |] eqn:EC; cbn [bind]; auto.
    split; [|reflexivity]. cbn [okv].
    eapply cast_nil_empty in EC; [exact EC|]. unfold slice_cast in EC. cbn [typeof] in EC.
    destruct nb; cbn; auto. destruct b' as [v|]; [|discriminate RB]. cbn in RB. subst v.
    destruct SB as [(L' & P)|(L' & _ & P)]; exact P. }
  assert (NA : na = false) by (eapply okv_read; eauto; discriminate). subst na.
  assert (K : forall bs lb', stable n0 L h bs -> elems_of (read h bs) = lb' ->
     let '(r, h') := (let '(out, h') := union_from grow L bs (seq 0 (List.length (elems_of (read h bs)))) a' h in (Ok out, h')) in
     ext n0 (eq L) h h' /\
     match r, Ok (VSlice ta false (union_loop (x :: la) lb')) with
     | Ok x0, Ok y0 => okv n0 L h' x0 /\ read h' x0 = y0
     | Err, Err => True | Panic, Panic => True | _, _ => False end).
  { intros bs lb' SS EL.
    pose proof (union_from_ok n0 L bs (seq 0 (List.length (elems_of (read h bs)))) h a' ta (x :: la) H0 OA SS RA) as U.
    destruct (union_from grow L bs _ a' h) as [out h']. destruct U as (O & X & R). split; [exact X|].
    split; [exact O|]. rewrite R, nth_seq, EL. reflexivity. }
  destruct (gty_eqb ta tb).
  - cbn [bind elems]. specialize (K b' (y :: lb) SB). rewrite RB in K. cbn [elems_of] in K. specialize (K eq_refl).
    rewrite RB. cbn [elems_of].
    destruct (union_from grow L b' (seq 0 (List.length (y :: lb))) a' h) as [out h']. exact K.
  - destruct (slice_cast (VSlice tb nb (y :: lb)) (VSlice ta false (x :: la))) as [r| |] eqn:EC; cbn [bind fst snd];
      try (split; [apply ext_refl|exact I]).
    assert (NR : nil_empty r).
    { unfold slice_cast in EC. cbn [typeof] in EC. apply bind_ok in EC as (l' & _ & [= <-]). exact I. }
    assert (ER : exists l', r = VSlice ta false l').
    { unfold slice_cast in EC. cbn [typeof] in EC. apply bind_ok in EC as (l' & _ & [= <-]). eauto. }
    destruct ER as (l' & ->). cbn [elems bind].
    specialize (K (HV (VSlice ta false l')) l' (stable_HV n0 L h _ NR) eq_refl).
    cbn [read elems_of] in *.
    destruct (union_from grow L (HV (VSlice ta false l')) (seq 0 (List.length l')) a' h) as [out h']. exact K.
Qed.

Lemma intersect_nil_empty a b v : intersect a b = Ok v -> nil_empty v.
Proof.
  unfold intersect. destruct (slicify a), (slicify b); try discriminate.
  intros H. apply bind_ok in H as (bs & _ & [= <-]). cbn. now destruct (filter _ _).
Qed.

Ltac easy_lift := eapply agrees_lift; [reflexivity|].

(** Merging one operator. *)
Lemma hmerge_op_ok n0 L o h a b : n0 <= List.length h -> okv n0 L h a -> placed h L b ->
  agrees n0 (okv n0 L) read (eq L) h (hmerge_op grow L o a b) (merge_op o (read h a) (read h b)).
Proof.
  intros H0 OA PB. pose proof (placed_okv n0 _ _ _ PB) as OB.
  assert (U : agrees n0 (okv n0 L) read (eq L) h (hunion grow L a b) (union (read h a) (read h b))).
  { apply hunion_ok; auto. left. eauto. }
  assert (I : agrees n0 (okv n0 L) read (eq L) h (fun h0 => (r <- intersect (read h a) (read h b) ;; Ok (HV r), h0))
                 (intersect (read h a) (read h b))).
  { easy_lift. destruct (intersect (read h a) (read h b)) as [r| |] eqn:E; cbn; auto.
    split; [|reflexivity]. now apply intersect_nil_empty in E. }
  assert (EQ : forall c, agrees n0 (okv n0 L) read (eq L) h
     (fun h0 => (e <- slice_equal (read h a) (read h b) ;; if e then Ok a else c, h0))
     (e <- slice_equal (read h a) (read h b) ;; if e then Ok (read h a) else match c with Ok z => Ok (read h z) | Err => Err | Panic => Panic end) \/ c <> Err).
  { intros c. destruct c; [right; discriminate| |right; discriminate]. left. easy_lift.
    destruct (slice_equal (read h a) (read h b)) as [[]| |]; cbn; auto. }
  destruct (EQ Err) as [EQ'|N]; [|contradiction]. clear EQ.
  unfold agrees, hmerge_op, merge_op in *. destruct o; cbv zeta.
  - exact EQ'.
  - destruct (is_nil (read h a)); [cbn; split; [apply ext_refl|auto]|].
    destruct (is_nil (read h b)); [cbn; split; [apply ext_refl|auto]|]. exact U.
  - destruct (is_nil (read h a)); [cbn; split; [apply ext_refl|auto]|].
    destruct (is_nil (read h b)); [cbn; split; [apply ext_refl|auto]|]. exact EQ'.
  - destruct (is_nil (read h a)); [cbn; split; [apply ext_refl|auto]|].
    destruct (is_nil (read h b)); [cbn; split; [apply ext_refl|auto]|]. exact I.
  - destruct (is_nil (read h a)); [cbn; split; [apply ext_refl|auto]|].
    destruct (is_nil (read h b)); [cbn; split; [apply ext_refl|auto]|]. exact I.
  - destruct (is_nil (read h a)); [cbn; split; [apply ext_refl|auto]|].
    destruct (is_nil (read h b)); [cbn; split; [apply ext_refl|auto]|]. exact U.
  - split; [apply ext_refl|]. cbn [fst snd].
    destruct (read h a); destruct (read h b); cbn; split; exact Logic.I || reflexivity.
Qed.

(** ** Entries and policies *)

Lemma lookup_read {V V'} (f : V -> V') k (m : smap V) :
  lookup k (map (fun kx => (fst kx, f (snd kx))) m) = option_map f (lookup k m).
Proof. induction m as [|[k' v] m IH]; cbn; [reflexivity|]. destruct (String.eqb k k'); auto. Qed.

Lemma insert_read {V V'} (f : V -> V') k v (m : smap V) :
  map (fun kx => (fst kx, f (snd kx))) (insert k v m) = insert k (f v) (map (fun kx => (fst kx, f (snd kx))) m).
Proof. induction m as [|[k' v'] m IH]; cbn; [reflexivity|]. destruct (String.eqb k k'); cbn; [reflexivity|now rewrite IH]. Qed.

Lemma has_read {V V'} (f : V -> V') k (m : smap V) : has k (map (fun kx => (fst kx, f (snd kx))) m) = has k m.
Proof. unfold has. rewrite lookup_read. now destruct (lookup k m). Qed.

Lemma keys_read {V V'} (f : V -> V') (m : smap V) : keys (map (fun kx => (fst kx, f (snd kx))) m) = keys m.
Proof. unfold keys. rewrite map_map. reflexivity. Qed.

Lemma rest_read {V V'} (f : V -> V') (b out : smap V) :
  map (fun kx => (fst kx, f (snd kx))) (merge_rest b out) =
  merge_rest (map (fun kx => (fst kx, f (snd kx))) b) (map (fun kx => (fst kx, f (snd kx))) out).
Proof.
  revert out; induction b as [|[k v] b IH]; intros out; cbn [merge_rest map fst snd]; [reflexivity|].
  rewrite has_read. destruct (has k out); [apply IH|]. rewrite IH, insert_read. reflexivity.
Qed.

Lemma lookup_entry h k e : lookup k (read_entry h e) = option_map (read h) (lookup k e).
Proof. exact (lookup_read (read h) k e). Qed.
Lemma insert_entry h k x e : read_entry h (insert k x e) = insert k (read h x) (read_entry h e).
Proof. exact (insert_read (read h) k x e). Qed.
Lemma rest_entry h b out : read_entry h (merge_rest b out) = merge_rest (read_entry h b) (read_entry h out).
Proof. exact (rest_read (read h) b out). Qed.
Lemma lookup_policy h k p : lookup k (read_policy h p) = option_map (read_entry h) (lookup k p).
Proof. exact (lookup_read (read_entry h) k p). Qed.
Lemma insert_policy h k e p : read_policy h (insert k e p) = insert k (read_entry h e) (read_policy h p).
Proof. exact (insert_read (read_entry h) k e p). Qed.
Lemma rest_policy h b out : read_policy h (merge_rest b out) = merge_rest (read_policy h b) (read_policy h out).
Proof. exact (rest_read (read_entry h) b out). Qed.

Lemma In_insert {V} k v (m : smap V) k' v' : In (k', v') (insert k v m) -> (k' = k /\ v' = v) \/ (In (k', v') m).
Proof.
  induction m as [|[k1 v1] m IH]; cbn.
  - intros [[= <- <-]|[]]; auto.
  - destruct (String.eqb k k1); cbn.
    + intros [[= <- <-]|H]; auto.
    + intros [[= <- <-]|H]; [auto|]. destruct (IH H); auto.
Qed.

Lemma In_rest {V} (b out : smap V) k v : In (k, v) (merge_rest b out) -> In (k, v) b \/ In (k, v) out.
Proof.
  revert out; induction b as [|[k1 v1] b IH]; intros out; cbn [merge_rest]; [auto|].
  destruct (has k1 out).
  - intros H. destruct (IH _ H); cbn; auto.
  - intros H. destruct (IH _ H) as [K|K]; [cbn; auto|]. apply In_insert in K. destruct K as [[-> ->]|K]; cbn; auto.
Qed.

Lemma keys_rest_NoDup {V} (b out : smap V) : NoDup (keys out) -> NoDup (keys (merge_rest b out)).
Proof.
  revert out; induction b as [|[k1 v1] b IH]; intros out H; cbn [merge_rest]; [exact H|].
  destruct (has k1 out); apply IH; auto. now apply keys_insert_NoDup.
Qed.

Definition okentry (n0 : nat) (t : etype) (attr : string) (h : heap) (e : hentry) : Prop :=
  NoDup (keys e) /\ forall o x, In (o, x) e -> okv n0 (SPol t attr o) h x.

Lemma placed_okentry n0 t attr h e : placed_entry h t attr e -> okentry n0 t attr h e.
Proof. intros [N P]. split; [exact N|]. intros o x I. apply placed_okv. eauto. Qed.

Lemma ext_placed_entry n0 W h h' t attr e : ext n0 W h h' -> placed_entry h t attr e ->
  placed_entry h' t attr e /\ read_entry h' e = read_entry h e.
Proof.
  intros X [N P]. split.
  - split; [exact N|]. intros o x I. now apply (ext_placed _ _ _ _ _ _ X (P o x I)).
  - apply map_ext_in. intros [o x] I. cbn. f_equal. now apply (ext_placed _ _ _ _ _ _ X (P o x I)).
Qed.

Lemma ext_okentry n0 (W : slot -> Prop) h h' t attr e : ext n0 W h h' ->
  (forall o, In o (keys e) -> ~ W (SPol t attr o)) -> okentry n0 t attr h e ->
  okentry n0 t attr h' e /\ read_entry h' e = read_entry h e.
Proof.
  intros X NW [N P].
  assert (K : forall o x, In (o, x) e -> ~ W (SPol t attr o)).
  { intros o x I. apply NW. unfold keys. change o with (fst (o, x)). now apply in_map. }
  split.
  - split; [exact N|]. intros o x I. exact (proj1 (ext_okv _ _ _ _ _ _ X (K o x I) (P o x I))).
  - apply map_ext_in. intros [o x] I. cbn. f_equal. exact (proj2 (ext_okv _ _ _ _ _ _ X (K o x I) (P o x I))).
Qed.

Definition Wattr (t : etype) (attr : string) (L : slot) : Prop := exists o, L = SPol t attr o.
Definition Wtype (t : etype) (L : slot) : Prop := exists attr o, L = SPol t attr o.

Definition rd_opt {A B} (f : heap -> A -> B) (h : heap) (o : option A) : option B := option_map (f h) o.
Definition okopt {A} (P : heap -> A -> Prop) (h : heap) (o : option A) : Prop := forall x, o = Some x -> P h x.

Lemma hmerge_loop_ok n0 t attr b a : forall h out,
  n0 <= List.length h -> okentry n0 t attr h a -> okentry n0 t attr h out -> placed_entry h t attr b ->
  (forall o, In o (keys a) -> ~ In o (keys out)) ->
  agrees n0 (okopt (okentry n0 t attr)) (rd_opt read_entry) (Wattr t attr) h
    (hmerge_loop grow t attr a b out) (merge_loop (read_entry h a) (read_entry h b) (read_entry h out)).
Proof.
  induction a as [|[opn av] a IH]; intros h out H0 [NA OA] OO PB DJ; cbn [hmerge_loop read_entry map merge_loop fst snd].
  { apply agrees_ret; [|reflexivity]. intros x [= <-]. exact OO. }
  change (map (fun kx : string * hval => (fst kx, read h (snd kx)))) with (read_entry h).
  assert (NA' : NoDup (keys a)) by now inversion NA.
  assert (NI : ~ In opn (keys a)) by now inversion NA.
  assert (OA' : okentry n0 t attr h a) by (split; [exact NA'|]; intros; apply OA; cbn; auto).
  assert (Nout : ~ In opn (keys out)) by (apply DJ; cbn; auto).
  assert (DJ' : forall c : hval, forall o, In o (keys a) -> ~ In o (keys (insert opn c out))).
  { intros c o I J. apply keys_insert_In in J. destruct J as [->|J]; [contradiction|]. revert J. apply DJ. cbn. auto. }
  rewrite lookup_entry.
  destruct (lookup opn b) as [bv|] eqn:EB; cbn [option_map].
  2:{ rewrite <- insert_entry. apply (IH h (insert opn av out)); auto.
      destruct OO as [NO OO]. split; [now apply keys_insert_NoDup|].
      intros o x I. apply In_insert in I. destruct I as [[-> ->]|I]; [apply OA; cbn; auto|auto]. }
  destruct (operator_of opn) as [o|].
  2:{ apply agrees_ret; [|reflexivity]. intros x [=]. }
  assert (PV : placed h (SPol t attr opn) bv) by (destruct PB as [_ PB]; apply PB; now apply lookup_In).
  assert (OV : okv n0 (SPol t attr opn) h av) by (apply OA; cbn; auto).
  eapply (agrees_bind n0 _ _ _ _ (eq (SPol t attr opn))).
  - apply hmerge_op_ok; eauto.
  - intros L <-. exists opn. reflexivity.
  - intros c h' Oc X.
    destruct (ext_okentry _ _ _ _ t attr a X) as [OA2 RA]; [intros o' I [= E]; subst; contradiction|exact OA'|].
    destruct (ext_okentry _ _ _ _ t attr out X) as [OO2 RO]; [intros o' I [= E]; subst; contradiction|exact OO|].
    destruct (ext_placed_entry _ _ _ _ _ _ _ X PB) as [PB2 RB].
    rewrite <- RA, <- RB, <- RO, <- insert_entry.
    apply (IH h' (insert opn c out)); auto.
    + apply ext_length in X. lia.
    + destruct OO2 as [NO OO2]. split; [now apply keys_insert_NoDup|].
      intros o' x I. apply In_insert in I. destruct I as [[-> ->]|I]; auto.
Qed.

Lemma hmerge_entries_ok n0 t attr h a b :
  n0 <= List.length h -> okentry n0 t attr h a -> placed_entry h t attr b ->
  agrees n0 (okentry n0 t attr) read_entry (Wattr t attr) h
    (hmerge_entries grow t attr a b) (merge_entries (read_entry h a) (read_entry h b)).
Proof.
  intros H0 OA PB. unfold hmerge_entries, merge_entries.
  eapply (agrees_bind n0 _ _ _ _ (Wattr t attr)).
  - apply (hmerge_loop_ok n0 t attr b a h []); auto. split; [constructor|intros ? ? []].
  - auto.
  - intros [out|] h' P X; cbn [rd_opt option_map].
    + destruct (ext_placed_entry _ _ _ _ _ _ _ X PB) as [PB2 RB]. rewrite <- RB, <- rest_entry.
      destruct (P out eq_refl) as [NO OO].
      apply agrees_ret; [|reflexivity]. split; [now apply keys_rest_NoDup|].
      intros o x I. apply In_rest in I. destruct I as [I|I]; [|auto]. apply placed_okv. now apply PB2.
    + apply agrees_ret; [|reflexivity]. split; [constructor|intros ? ? []].
Qed.

Definition okpolicy (n0 : nat) (t : etype) (h : heap) (p : hpolicy) : Prop :=
  NoDup (keys p) /\ forall k e, In (k, e) p -> okentry n0 t k h e.

Lemma placed_okpolicy n0 t h p : placed_policy h t p -> okpolicy n0 t h p.
Proof. intros [N P]. split; [exact N|]. intros k e I. apply placed_okentry. eauto. Qed.

Lemma ext_placed_policy n0 W h h' t p : ext n0 W h h' -> placed_policy h t p ->
  placed_policy h' t p /\ read_policy h' p = read_policy h p.
Proof.
  intros X [N P]. split.
  - split; [exact N|]. intros k e I. now apply (ext_placed_entry _ _ _ _ _ _ _ X (P k e I)).
  - apply map_ext_in. intros [k e] I. cbn. f_equal. now apply (ext_placed_entry _ _ _ _ _ _ _ X (P k e I)).
Qed.

Lemma In_keys {V} k v (m : smap V) : In (k, v) m -> In k (keys m).
Proof. intros I. unfold keys. change k with (fst (k, v)). now apply in_map. Qed.

Lemma ext_okpolicy n0 (W : slot -> Prop) h h' t p : ext n0 W h h' ->
  (forall k o, In k (keys p) -> ~ W (SPol t k o)) -> okpolicy n0 t h p ->
  okpolicy n0 t h' p /\ read_policy h' p = read_policy h p.
Proof.
  intros X NW [N P].
  assert (K : forall k e, In (k, e) p -> forall o, In o (keys e) -> ~ W (SPol t k o)).
  { intros k e I o _. apply NW. now apply In_keys in I. }
  split.
  - split; [exact N|]. intros k e I. exact (proj1 (ext_okentry _ _ _ _ _ _ _ X (K k e I) (P k e I))).
  - apply map_ext_in. intros [k e] I. cbn. f_equal. exact (proj2 (ext_okentry _ _ _ _ _ _ _ X (K k e I) (P k e I))).
Qed.

Lemma hcombine_loop_ok n0 t sub a : forall h out,
  n0 <= List.length h -> okpolicy n0 t h a -> okpolicy n0 t h out -> placed_policy h t sub ->
  (forall k, In k (keys a) -> ~ In k (keys out)) ->
  agrees n0 (okpolicy n0 t) read_policy (Wtype t) h
    (hcombine_loop grow t a sub out) (combine_loop (read_policy h a) (read_policy h sub) (read_policy h out)).
Proof.
  induction a as [|[k pv] a IH]; intros h out H0 [NA OA] OO PB DJ; cbn [hcombine_loop read_policy map combine_loop fst snd].
  { apply agrees_ret; [exact OO|reflexivity]. }
  change (map (fun ke : string * hentry => (fst ke, read_entry h (snd ke)))) with (read_policy h).
  assert (NA' : NoDup (keys a)) by now inversion NA.
  assert (NI : ~ In k (keys a)) by now inversion NA.
  assert (OA' : okpolicy n0 t h a) by (split; [exact NA'|]; intros; apply OA; cbn; auto).
  assert (Nout : ~ In k (keys out)) by (apply DJ; cbn; auto).
  assert (DJ' : forall c : hentry, forall o, In o (keys a) -> ~ In o (keys (insert k c out))).
  { intros c o I J. apply keys_insert_In in J. destruct J as [->|J]; [contradiction|]. revert J. apply DJ. cbn. auto. }
  rewrite lookup_policy.
  destruct (lookup k sub) as [sv|] eqn:EB; cbn [option_map].
  2:{ rewrite <- insert_policy. apply (IH h (insert k pv out)); auto.
      destruct OO as [NO OO]. split; [now apply keys_insert_NoDup|].
      intros o x I. apply In_insert in I. destruct I as [[-> ->]|I]; [apply OA; cbn; auto|auto]. }
  assert (PV : placed_entry h t k sv) by (destruct PB as [_ PB]; apply PB; now apply lookup_In).
  assert (OV : okentry n0 t k h pv) by (apply OA; cbn; auto).
  eapply (agrees_bind n0 _ _ _ _ (Wattr t k)).
  - apply hmerge_entries_ok; eauto.
  - intros L (o & ->). exists k, o. reflexivity.
  - intros c h' Oc X.
    destruct (ext_okpolicy _ _ _ _ t a X) as [OA2 RA]; [intros k' o' I (o2 & [= E]); subst; contradiction|exact OA'|].
    destruct (ext_okpolicy _ _ _ _ t out X) as [OO2 RO]; [intros k' o' I (o2 & [= E]); subst; contradiction|exact OO|].
    destruct (ext_placed_policy _ _ _ _ _ _ X PB) as [PB2 RB].
    rewrite <- RA, <- RB, <- RO, <- insert_policy.
    apply (IH h' (insert k c out)); auto.
    + apply ext_length in X. lia.
    + destruct OO2 as [NO OO2]. split; [now apply keys_insert_NoDup|].
      intros o' x I. apply In_insert in I. destruct I as [[-> ->]|I]; auto.
Qed.

Definition okg (n0 : nat) (t : etype) : heap -> hgpolicy -> Prop := okopt (okpolicy n0 t).

Lemma placed_okg n0 t h p : placed_gpolicy h t p -> okg n0 t h p.
Proof. intros P q E. apply placed_okpolicy. auto. Qed.

Lemma ext_placed_g n0 W h h' t p : ext n0 W h h' -> placed_gpolicy h t p ->
  placed_gpolicy h' t p /\ read_gpolicy h' p = read_gpolicy h p.
Proof.
  intros X P. destruct p as [q|]; cbn; [|split; [intros ? [=]|reflexivity]].
  destruct (ext_placed_policy _ _ _ _ _ _ X (P q eq_refl)) as [P' R]. split; [intros ? [= <-]; exact P'|now rewrite R].
Qed.

Lemma ext_okg n0 (W : slot -> Prop) h h' t p : ext n0 W h h' -> (forall k o, ~ W (SPol t k o)) -> okg n0 t h p ->
  okg n0 t h' p /\ read_gpolicy h' p = read_gpolicy h p.
Proof.
  intros X NW P. destruct p as [q|]; cbn; [|split; [intros ? [=]|reflexivity]].
  destruct (ext_okpolicy _ _ _ _ _ _ X (fun k o _ => NW k o) (P q eq_refl)) as [P' R].
  split; [intros ? [= <-]; exact P'|now rewrite R].
Qed.

Lemma pol_read h p : pol (read_gpolicy h p) = read_policy h (hpol p).
Proof. now destruct p. Qed.

Lemma okg_pol n0 t h p : okg n0 t h p -> okpolicy n0 t h (hpol p).
Proof. destruct p as [q|]; intros H; [now apply H|]. split; [constructor|intros ? ? []]. Qed.

Lemma placed_pol t h p : placed_gpolicy h t p -> placed_policy h t (hpol p).
Proof. destruct p as [q|]; intros H; [now apply H|]. split; [constructor|intros ? ? []]. Qed.

Lemma hcombine2_ok n0 t h parent sub :
  n0 <= List.length h -> okg n0 t h parent -> placed_gpolicy h t sub ->
  agrees n0 (okg n0 t) read_gpolicy (Wtype t) h
    (hcombine2 grow t parent sub) (combine2 (read_gpolicy h parent) (read_gpolicy h sub)).
Proof.
  intros H0 OP PS. unfold hcombine2, combine2. rewrite !pol_read.
  pose proof (okg_pol _ _ _ _ OP) as OP'. pose proof (placed_pol _ _ _ PS) as PS'.
  pose proof (placed_okg n0 _ _ _ PS) as OS.
  destruct (hpol sub) as [|s0 s] eqn:ES; [apply agrees_ret; [exact OP|reflexivity]|].
  destruct (hpol parent) as [|p0 p] eqn:EP; [apply agrees_ret; [exact OS|reflexivity]|].
  change (read_policy h (s0 :: s)) with ((fst s0, read_entry h (snd s0)) :: read_policy h s).
  change (read_policy h (p0 :: p)) with ((fst p0, read_entry h (snd p0)) :: read_policy h p).
  cbv beta iota.
  change ((fst s0, read_entry h (snd s0)) :: read_policy h s) with (read_policy h (s0 :: s)).
  change ((fst p0, read_entry h (snd p0)) :: read_policy h p) with (read_policy h (p0 :: p)).
  set (sb := s0 :: s) in *. set (pp := p0 :: p) in *. clearbody sb pp.
  eapply (agrees_bind n0 _ _ _ _ (Wtype t)).
  - apply (hcombine_loop_ok n0 t sb pp h []); auto. split; [constructor|intros ? ? []].
  - auto.
  - intros out h' [NO OO] X. destruct (ext_placed_policy _ _ _ _ _ _ X PS') as [PB2 RB].
    rewrite <- RB, <- rest_policy. cbv zeta.
    assert (OR : okpolicy n0 t h' (merge_rest sb out)).
    { split; [now apply keys_rest_NoDup|].
      intros o x I. apply In_rest in I. destruct I as [I|I]; [|auto]. apply placed_okentry. now apply PB2. }
    apply agrees_look_bind; [reflexivity|]. intros u. apply agrees_ret; [|reflexivity]. intros ? [= <-]. exact OR.
Qed.

Lemma hcombine_fold_ok n0 t ps : forall h out,
  n0 <= List.length h -> okg n0 t h out -> (forall p, In p ps -> placed_gpolicy h t p) ->
  agrees n0 (okg n0 t) read_gpolicy (Wtype t) h
    (hcombine_fold grow t out ps) (combine_fold (read_gpolicy h out) (map (read_gpolicy h) ps)).
Proof.
  induction ps as [|p ps IH]; intros h out H0 OO PP; cbn [hcombine_fold combine_fold map].
  { apply agrees_ret; [exact OO|reflexivity]. }
  eapply (agrees_bind n0 _ _ _ _ (Wtype t)).
  - apply hcombine2_ok; auto. apply PP. now left.
  - auto.
  - intros out' h' OO' X.
    assert (RM : map (read_gpolicy h) ps = map (read_gpolicy h') ps).
    { apply map_ext_in. intros q I. symmetry. eapply ext_placed_g; eauto. apply PP. now right. }
    rewrite RM. apply IH; auto.
    + apply ext_length in X. lia.
    + intros q I. eapply ext_placed_g; eauto. apply PP. now right.
Qed.

Lemma hcombine_policies_ok n0 t ps h :
  n0 <= List.length h -> (forall p, In p ps -> placed_gpolicy h t p) ->
  agrees n0 (okg n0 t) read_gpolicy (Wtype t) h
    (hcombine_policies grow t ps) (combine_policies (map (read_gpolicy h) ps)).
Proof.
  intros H0 PP. destruct ps as [|p ps]; cbn [hcombine_policies combine_policies map].
  { apply agrees_ret; [|reflexivity]. intros ? [=]. }
  apply agrees_look_bind; [reflexivity|]. intros _. apply hcombine_fold_ok; auto.
  - apply placed_okg. apply PP. now left.
  - intros q I. apply PP. now right.
Qed.

(** ** All entity types *)

Record okpolicies (n0 : nat) (h : heap) (p : hpolicies) : Prop := {
  op_op : okg n0 EOP h (hp_op p);
  op_rp : okg n0 ERP h (hp_rp p);
  op_as : okg n0 EAS h (hp_as p);
  op_oc : okg n0 EOC h (hp_oc p);
  op_pr : okg n0 EPR h (hp_pr p);
  op_fe : okg n0 EFE h (hp_fe p);
  op_extra : forall k q, In (k, q) (hp_extra p) -> okg n0 (EX k) h q }.

Definition Wpol (L : slot) : Prop := exists t, Wtype t L.

Lemma ext_placed_policies n0 W h h' p : ext n0 W h h' -> placed_policies h p ->
  placed_policies h' p /\ read_policies h' p = read_policies h p.
Proof.
  intros X [P1 P2 P3 P4 P5 P6 P7].
  assert (K : forall t q, placed_gpolicy h t q -> placed_gpolicy h' t q) by (intros t q I; eapply ext_placed_g; eauto).
  assert (R : forall t q, placed_gpolicy h t q -> read_gpolicy h' q = read_gpolicy h q) by (intros t q I; eapply ext_placed_g; eauto).
  split.
  - constructor; eauto.
  - unfold read_policies. rewrite (R _ _ P1), (R _ _ P2), (R _ _ P3), (R _ _ P4), (R _ _ P5), (R _ _ P6). f_equal.
    apply map_ext_in. intros [k q] I. cbn. f_equal. apply (R _ _ (P7 k q I)).
Qed.

Definition rd_list {A B} (f : heap -> A -> B) (h : heap) (l : list A) : list B := map (f h) l.
Definition rd_named (h : heap) (kp : string * hgpolicy) : string * gpolicy := (fst kp, read_gpolicy h (snd kp)).

Lemma hextra_entries_read h k ps :
  extra_entries k (map (read_policies h) ps) = map (read_gpolicy h) (hextra_entries k ps).
Proof.
  unfold extra_entries, hextra_entries. induction ps as [|p ps IH]; [reflexivity|]. cbn [map flat_map].
  rewrite map_app, <- IH. f_equal. unfold read_policies at 1. cbn [mp_extra].
  rewrite (lookup_read (read_gpolicy h)). now destruct (lookup k (hp_extra p)).
Qed.

Lemma hextra_keys_read h ps : extra_keys (map (read_policies h) ps) = hextra_keys ps.
Proof.
  unfold extra_keys, hextra_keys. f_equal. induction ps as [|p ps IH]; [reflexivity|]. cbn [map flat_map].
  rewrite IH. f_equal. unfold read_policies. cbn [mp_extra]. apply (keys_read (read_gpolicy h)).
Qed.

Lemma dedup_NoDup l : NoDup (dedup l).
Proof.
  induction l as [|x l IH]; cbn; [constructor|]. constructor; [|now apply NoDup_filter].
  rewrite filter_In. intros [_ H]. now rewrite String.eqb_refl in H.
Qed.

Definition Wextra (ks : list string) (L : slot) : Prop := exists k, In k ks /\ Wtype (EX k) L.

Lemma hextras_ok n0 (ps : list hpolicies) ks : forall h,
  n0 <= List.length h -> NoDup ks -> (forall p, In p ps -> placed_policies h p) ->
  agrees n0 (fun h l => forall k q, In (k, q) l -> In k ks /\ okg n0 (EX k) h q) (rd_list rd_named) (Wextra ks) h
    (mapM (fun k => bindM (hcombine_policies grow (EX k) (hextra_entries k ps)) (fun c => ret (k, c))) ks)
    (map_res (fun k => bind (combine_policies (extra_entries k (map (read_policies h) ps))) (fun c => Ok (k, c))) ks).
Proof.
  induction ks as [|k ks IH]; intros h H0 ND PP; cbn [mapM map_res].
  { apply agrees_ret; [intros ? ? []|reflexivity]. }
  inversion ND as [|? ? NI ND']; subst.
  eapply (agrees_bind n0 (fun h kq => fst kq = k /\ okg n0 (EX k) h (snd kq)) rd_named _ _ (Wtype (EX k))).
  - rewrite hextra_entries_read. eapply (agrees_bind n0 _ _ _ _ (Wtype (EX k))).
    + apply hcombine_policies_ok; [exact H0|]. intros q I. unfold hextra_entries in I. apply in_flat_map in I.
      destruct I as (p & I & J). destruct (lookup k (hp_extra p)) eqn:E; [|destruct J]. destruct J as [<-|[]].
      apply (pp_extra _ _ (PP p I)). now apply lookup_In.
    + auto.
    + intros c h' OC _. apply agrees_ret; [split; [reflexivity|exact OC]|reflexivity].
  - intros L HL. exists k. split; [now left|exact HL].
  - intros [k' c] h' [Ek OC] X. cbn in Ek, OC. subst k'.
    assert (RM : map (read_policies h) ps = map (read_policies h') ps).
    { apply map_ext_in. intros q I. symmetry. eapply ext_placed_policies; eauto. }
    rewrite RM.
    eapply (agrees_bind n0 _ _ _ _ (Wextra ks)).
    + apply IH; [apply ext_length in X; lia|exact ND'|]. intros p I. eapply ext_placed_policies; eauto.
    + intros L (k2 & I & HL). exists k2. split; [now right|exact HL].
    + intros l h2 OL X2.
      assert (NW : forall a o, ~ Wextra ks (SPol (EX k) a o)).
      { intros a o (k2 & J & a2 & o2 & E). injection E as -> _ _. contradiction. }
      destruct (ext_okg _ _ _ _ _ _ X2 NW OC) as [OC2 RC].
      apply agrees_ret.
      * intros k2 q [[= <- <-]|I]; [split; [now left|exact OC2]|]. destruct (OL k2 q I) as [J O]. split; [now right|exact O].
      * unfold rd_list, rd_named at 1 3. cbn [map fst snd]. now rewrite RC.
Qed.

Lemma present_read h (ps : list (option hpolicies)) :
  present (map (option_map (read_policies h)) ps) = map (read_policies h) (hpresent ps).
Proof. unfold present, hpresent in *. induction ps as [|[p|] ps IH]; [reflexivity| |exact IH]. cbn. now rewrite <- IH. Qed.

Lemma in_hpresent p ps : In p (hpresent ps) -> In (Some p) ps.
Proof. unfold hpresent. rewrite in_flat_map. intros ([q|] & I & J); [|destruct J]. destruct J as [<-|[]]; auto. Qed.

Ltac other_type := let H := fresh in intros ? ? H; unfold Wextra, Wtype in H;
  repeat match type of H with ex _ => destruct H as [? H] | _ /\ _ => destruct H as [_ H] end; discriminate H.

Lemma hmerge_policies_ok n0 ps h :
  n0 <= List.length h -> (forall p, In (Some p) ps -> placed_policies h p) ->
  agrees n0 (okpolicies n0) read_policies Wpol h
    (hmerge_policies grow ps) (merge_policies (map (option_map (read_policies h)) ps)).
Proof.
  intros H0 PP. unfold hmerge_policies, merge_policies. rewrite present_read. cbv zeta.
  assert (PQ : forall p, In p (hpresent ps) -> placed_policies h p) by (intros p I; apply PP; now apply in_hpresent).
  set (qs := hpresent ps) in *. clearbody qs. clear PP ps.
  assert (WT : forall t L, Wtype t L -> Wpol L) by (intros t L H; exists t; exact H).
  rewrite !map_map. cbn [read_policies mp_op mp_rp mp_as mp_oc mp_pr mp_fe].
  assert (KG : forall h' (sel : hpolicies -> hgpolicy) t W, ext n0 W h h' ->
     (forall p, placed_policies h' p -> placed_gpolicy h' t (sel p)) ->
     (forall p, In p qs -> placed_gpolicy h' t (sel p)) ).
  { intros h' sel t W X S p I. apply S. eapply ext_placed_policies; eauto. }
  assert (RG : forall h' (sel : hpolicies -> hgpolicy) t W, ext n0 W h h' ->
     (forall p, placed_policies h p -> placed_gpolicy h t (sel p)) ->
     map (fun p => read_gpolicy h (sel p)) qs = map (read_gpolicy h') (map sel qs)).
  { intros h' sel t W X S. rewrite map_map. apply map_ext_in. intros p I. symmetry. eapply ext_placed_g; eauto. }
  assert (STEP : forall h' (sel : hpolicies -> hgpolicy) t W, ext n0 W h h' ->
     (forall h p, placed_policies h p -> placed_gpolicy h t (sel p)) ->
     agrees n0 (okg n0 t) read_gpolicy (Wtype t) h' (hcombine_policies grow t (map sel qs))
       (combine_policies (map (fun p => read_gpolicy h (sel p)) qs))).
  { intros h' sel t W X S. rewrite (RG h' sel t W X (S h)). apply hcombine_policies_ok.
    - apply ext_length in X. lia.
    - intros q I. apply in_map_iff in I. destruct I as (p & <- & I). eapply KG; eauto. }
  eapply (agrees_bind n0 _ _ _ _ (Wtype EOP)); [apply (STEP h hp_op EOP (Wtype EOP)); [apply ext_refl|apply pp_op]|apply WT|].
  intros op h1 O1 X1.
  pose proof (ext_weaken _ _ _ _ _ (WT EOP) X1) as E1.
  eapply (agrees_bind n0 _ _ _ _ (Wtype ERP)); [apply (STEP h1 hp_rp ERP Wpol); [exact E1|apply pp_rp]|apply WT|].
  intros rp h2 O2 X2. pose proof (ext_trans _ _ _ _ _ E1 (ext_weaken _ _ _ _ _ (WT ERP) X2)) as E2.
  eapply (agrees_bind n0 _ _ _ _ (Wtype EAS)); [apply (STEP h2 hp_as EAS Wpol); [exact E2|apply pp_as]|apply WT|].
  intros as_ h3 O3 X3. pose proof (ext_trans _ _ _ _ _ E2 (ext_weaken _ _ _ _ _ (WT EAS) X3)) as E3.
  eapply (agrees_bind n0 _ _ _ _ (Wtype EOC)); [apply (STEP h3 hp_oc EOC Wpol); [exact E3|apply pp_oc]|apply WT|].
  intros oc h4 O4 X4. pose proof (ext_trans _ _ _ _ _ E3 (ext_weaken _ _ _ _ _ (WT EOC) X4)) as E4.
  eapply (agrees_bind n0 _ _ _ _ (Wtype EPR)); [apply (STEP h4 hp_pr EPR Wpol); [exact E4|apply pp_pr]|apply WT|].
  intros pr h5 O5 X5. pose proof (ext_trans _ _ _ _ _ E4 (ext_weaken _ _ _ _ _ (WT EPR) X5)) as E5.
  eapply (agrees_bind n0 _ _ _ _ (Wtype EFE)); [apply (STEP h5 hp_fe EFE Wpol); [exact E5|apply pp_fe]|apply WT|].
  intros fe h6 O6 X6. pose proof (ext_trans _ _ _ _ _ E5 (ext_weaken _ _ _ _ _ (WT EFE) X6)) as E6.
  rewrite hextra_keys_read.
  assert (RM : map (read_policies h) qs = map (read_policies h6) qs).
  { apply map_ext_in. intros q I. symmetry. eapply ext_placed_policies; eauto. }
  rewrite RM.
  eapply (agrees_bind n0 _ _ _ _ (Wextra (hextra_keys qs))).
  { apply hextras_ok; [apply ext_length in E6; lia|apply dedup_NoDup|]. intros p I. eapply ext_placed_policies; eauto. }
  { intros L (k & _ & H). exists (EX k). exact H. }
  intros ex h7 O7 X7.
  assert (PR : forall t (W : slot -> Prop) ha hb q, okg n0 t ha q -> ext n0 W ha hb -> (forall k o, ~ W (SPol t k o)) ->
     okg n0 t hb q /\ read_gpolicy hb q = read_gpolicy ha q) by (intros; eapply ext_okg; eauto).
  destruct (PR _ _ _ _ _ O1 X2) as [O1a R1a]; [other_type|].
  destruct (PR _ _ _ _ _ O1a X3) as [O1b R1b]; [other_type|].
  destruct (PR _ _ _ _ _ O1b X4) as [O1c R1c]; [other_type|].
  destruct (PR _ _ _ _ _ O1c X5) as [O1d R1d]; [other_type|].
  destruct (PR _ _ _ _ _ O1d X6) as [O1e R1e]; [other_type|].
  destruct (PR _ _ _ _ _ O1e X7) as [O1f R1f]; [other_type|].
  destruct (PR _ _ _ _ _ O2 X3) as [O2b R2b]; [other_type|].
  destruct (PR _ _ _ _ _ O2b X4) as [O2c R2c]; [other_type|].
  destruct (PR _ _ _ _ _ O2c X5) as [O2d R2d]; [other_type|].
  destruct (PR _ _ _ _ _ O2d X6) as [O2e R2e]; [other_type|].
  destruct (PR _ _ _ _ _ O2e X7) as [O2f R2f]; [other_type|].
  destruct (PR _ _ _ _ _ O3 X4) as [O3c R3c]; [other_type|].
  destruct (PR _ _ _ _ _ O3c X5) as [O3d R3d]; [other_type|].
  destruct (PR _ _ _ _ _ O3d X6) as [O3e R3e]; [other_type|].
  destruct (PR _ _ _ _ _ O3e X7) as [O3f R3f]; [other_type|].
  destruct (PR _ _ _ _ _ O4 X5) as [O4d R4d]; [other_type|].
  destruct (PR _ _ _ _ _ O4d X6) as [O4e R4e]; [other_type|].
  destruct (PR _ _ _ _ _ O4e X7) as [O4f R4f]; [other_type|].
  destruct (PR _ _ _ _ _ O5 X6) as [O5e R5e]; [other_type|].
  destruct (PR _ _ _ _ _ O5e X7) as [O5f R5f]; [other_type|].
  destruct (PR _ _ _ _ _ O6 X7) as [O6f R6f]; [other_type|].
  apply agrees_ret.
  - constructor; cbn; auto. intros k q I. now apply O7.
  - unfold read_policies. cbn. f_equal; congruence.
Qed.


(** ** Application *)

(** A field of a result: on an array of its own use, or on an operand's array. *)
Definition okfield (n0 : nat) (t : etype) (i : nat) (h : heap) (x : hval) : Prop :=
  okv n0 (SMd t i) h x \/ exists t' k o, okv n0 (SPol t' k o) h x.

Lemma ext_okfield n0 (W : slot -> Prop) h h' t i x : ext n0 W h h' -> ~ W (SMd t i) -> (forall t k o, ~ W (SPol t k o)) ->
  okfield n0 t i h x -> okfield n0 t i h' x /\ read h' x = read h x.
Proof.
  intros X N1 N2 [O|(t' & k & o & O)].
  - destruct (ext_okv _ _ _ _ _ _ X N1 O). split; [now left|assumption].
  - destruct (ext_okv _ _ _ _ _ _ X (N2 _ _ _) O). split; [right; eauto|assumption].
Qed.

Definition rd_pair (h : heap) (xs : hval * bool) : gval * bool := (read h (fst xs), snd xs).
Definition okfst (P : heap -> hval -> Prop) (h : heap) (xs : hval * bool) : Prop := P h (fst xs).

Lemma HV_okv n0 L h v : nil_empty v -> okv n0 L h (HV v).
Proof. auto. Qed.

Lemma not_slice_HV n0 L L' h x : is_slice (read h x) = false -> okv n0 L h x -> okv n0 L' h x.
Proof. destruct x; cbn; [auto|discriminate]. Qed.

Lemma zero_nil_empty t : nil_empty (zero_of t).
Proof. destruct t; exact I. Qed.

Lemma cast_slice_ok s nt v : is_slice s = true -> slice_cast s nt = Ok v -> nil_empty v.
Proof.
  destruct s; try discriminate. intros _. cbn [slice_cast]. destruct (typeof nt) as [[]|]; try discriminate.
  intros H. apply bind_ok in H as (l' & _ & [= <-]). exact I.
Qed.

Lemma cast_not_slice s nt : is_slice s = false -> slice_cast s nt = Ok s.
Proof. now destruct s. Qed.

(** The operators other than add. *)
Lemma happly_op_ok n0 (P : heap -> hval -> Prop) L o h value set pv ess Lp :
  o <> OAdd -> (forall v, nil_empty v -> P h (HV v)) -> P h value -> okv n0 Lp h pv ->
  agrees n0 (okfst P) rd_pair (eq L) h (happly_op grow L o value set pv ess)
    (apply_op o (read h value) set (read h pv) ess).
Proof.
  intros NA PH PV OP.
  assert (CAST : forall b b', agrees n0 (okfst P) rd_pair (eq L) h
     (fun h0 => (if is_slice (read h pv) then r <- slice_cast (read h pv) (slicify (read h value)) ;; Ok (HV r, b) else Ok (pv, b), h0))
     (r <- slice_cast (read h pv) (slicify (read h value)) ;; Ok (r, b)) \/ b' = b).
  { intros b b'. left. eapply agrees_lift; [reflexivity|]. destruct (is_slice (read h pv)) eqn:ES.
    - destruct (slice_cast (read h pv) (slicify (read h value))) as [r| |] eqn:EC; cbn; auto.
      split; [|reflexivity]. apply PH. eapply cast_slice_ok; eauto.
    - rewrite cast_not_slice by assumption. cbn. split; [|reflexivity].
      destruct pv as [v|]; [|discriminate ES]. apply PH. exact OP. }
  destruct (CAST true false) as [C|C]; [|discriminate]. clear CAST.
  assert (SAME : forall o', (forall v' s', apply_op o' (read h value) set (read h pv) ess = Ok (v', s') -> v' = read h value) ->
     agrees n0 (okfst P) rd_pair (eq L) h
       (fun h0 => ('(_, s) <- apply_op o' (read h value) set (read h pv) ess ;; Ok (value, s), h0))
       (apply_op o' (read h value) set (read h pv) ess)).
  { intros o' E. eapply agrees_lift; [reflexivity|].
    destruct (apply_op o' (read h value) set (read h pv) ess) as [[v' s']| |] eqn:EA; cbn; auto.
    split; [exact PV|]. unfold rd_pair. cbn. now rewrite (E v' s' eq_refl). }
  assert (KEEP : forall s, agrees n0 (okfst P) rd_pair (eq L) h (fun h0 => (Ok (value, s), h0)) (Ok (read h value, s))).
  { intros s. apply agrees_ret; [exact PV|reflexivity]. }
  destruct o.
  - (* value *)
    unfold agrees, happly_op. cbn [apply_op]. cbv zeta. destruct (is_nil (read h pv)) eqn:EN.
    + cbn. split; [apply ext_refl|]. split; [now apply PH|reflexivity].
    + unfold agrees in C. destruct (is_slice (read h pv)); exact C.
  - contradiction.
  - (* default *)
    unfold agrees, happly_op. cbn [apply_op]. cbv zeta. destruct (negb set) eqn:ES; [|apply KEEP].
    assert (EZ : exists z, (if is_nil (read h value) then Ok true else is_zero (read h value)) = Ok z).
    { destruct (read h value); cbn; eauto. }
    destruct EZ as (z & ->). cbn [bind]. destruct z; [exact C|apply KEEP].
  - (* one_of *)
    apply (SAME OOneOf). cbn [apply_op]. intros v' s'.
    destruct (negb set && negb ess); [congruence|]. destruct (is_nil (read h pv)); [congruence|].
    destruct (negb set); [discriminate|]. destruct (slice_contains _ _); congruence.
  - (* subset_of *)
    unfold agrees, happly_op. cbn [apply_op]. cbv zeta.
    destruct (negb set && negb ess); [apply KEEP|]. destruct (is_nil (read h pv)); [apply KEEP|].
    destruct (negb set); [cbn; split; [apply ext_refl|exact I]|].
    split; [apply ext_refl|]. cbn [fst snd].
    destruct (intersect _ _) as [r| |] eqn:EI; cbn; auto. split; [|reflexivity]. apply PH. eapply intersect_nil_empty; eauto.
  - (* superset_of *)
    apply (SAME OSupersetOf). cbn [apply_op]. intros v' s'.
    destruct (negb set && negb ess); [congruence|]. destruct (is_nil (read h pv)); [congruence|].
    destruct (negb set); [discriminate|]. destruct (is_superset_of _ _) as [[]| |]; cbn; congruence.
  - (* essential *)
    apply (SAME OEssential). cbn [apply_op]. intros v' s'.
    destruct (read h pv) as [|[]| | | | | |]; try congruence.
    destruct (is_nil (read h value)); [congruence|]. destruct (is_slice (read h value)); [congruence|].
    destruct (is_zero (read h value)) as [[]| |]; cbn; congruence.
Qed.

Lemma happly_add_ok n0 t i t' k o h value set pv ess :
  n0 <= List.length h -> okv n0 (SMd t i) h value -> okv n0 (SPol t' k o) h pv ->
  agrees n0 (okfst (okfield n0 t i)) rd_pair (eq (SMd t i)) h
    (happly_op grow (SMd t i) OAdd value set pv ess) (apply_op OAdd (read h value) set (read h pv) ess).
Proof.
  intros H0 OV OP. unfold agrees, happly_op. cbn [apply_op]. cbv zeta.
  destruct (is_nil (read h value)).
  { cbn. split; [apply ext_refl|]. split; [right; do 3 eexists; exact OP|reflexivity]. }
  destruct (is_nil (read h pv)).
  { cbn. split; [apply ext_refl|]. split; [now left|reflexivity]. }
  change (agrees n0 (okfst (okfield n0 t i)) rd_pair (eq (SMd t i)) h
    (bindM (hunion grow (SMd t i) value pv) (fun u => ret (u, true)))
    (u <- union (read h value) (read h pv) ;; Ok (u, true))).
  eapply (agrees_bind n0 _ _ _ _ (eq (SMd t i))).
  - apply hunion_ok; auto. right. exists (SPol t' k o). split; [discriminate|exact OP].
  - auto.
  - intros u h' OU _. apply agrees_ret; [left; exact OU|reflexivity].
Qed.

(** Operators after add never write. *)
Lemma happly_ops_ok n0 t i t' k os p ess : ~ In OAdd os -> forall h value set,
  n0 <= List.length h -> okfield n0 t i h value -> okentry n0 t' k h p ->
  agrees n0 (okfst (okfield n0 t i)) rd_pair (eq (SMd t i)) h
    (happly_ops grow (SMd t i) os p ess value set) (apply_ops os (read_entry h p) ess (read h value) set).
Proof.
  intros NA. induction os as [|o os IH]; intros h value set H0 OV OE; cbn [happly_ops apply_ops].
  { apply agrees_ret; [exact OV|reflexivity]. }
  unfold get. rewrite lookup_entry. destruct (lookup (op_name o) p) as [pv|] eqn:EL; cbn [option_map].
  2:{ apply IH; auto. intros I. apply NA. now right. }
  eapply (agrees_bind n0 _ _ _ _ (eq (SMd t i))).
  - eapply (happly_op_ok n0 (okfield n0 t i) (SMd t i) o h value set pv ess (SPol t' k (op_name o))).
    + intros ->. apply NA. now left.
    + intros v N. left. exact N.
    + exact OV.
    + apply OE. now apply lookup_In.
  - auto.
  - intros [v' s'] h' OV' X. cbn [rd_pair fst snd].
    destruct (ext_okentry _ _ _ _ t' k p X) as [OE2 RE]; [intros ? ? [=]|exact OE|]. rewrite <- RE.
    apply IH; auto.
    + intros I. apply NA. now right.
    + apply ext_length in X. lia.
Qed.

Lemma happly_to_ok n0 t i t' k p h value set :
  n0 <= List.length h -> okv n0 (SMd t i) h value -> okentry n0 t' k h p ->
  agrees n0 (okfield n0 t i) read (eq (SMd t i)) h
    (happly_to grow (SMd t i) p value set) (apply_to (read_entry h p) (read h value) set).
Proof.
  intros H0 OV OE. unfold happly_to, apply_to.
  assert (K : forall ess, agrees n0 (okfield n0 t i) read (eq (SMd t i)) h
     (bindM (happly_ops grow (SMd t i) operator_order p ess value set) (fun x => let '(v, _) := x in ret v))
     ('(v, _) <- apply_ops operator_order (read_entry h p) ess (read h value) set ;; Ok v)).
  2:{ set (X := K (entry_essential (read_entry h p))). unfold agrees, bindM, look in *. cbn [fst snd] in *. exact X. }
  intros ess. eapply (agrees_bind n0 (okfst (okfield n0 t i)) rd_pair _ _ (eq (SMd t i))); [|auto|].
  2:{ intros [v s] h' O _. apply agrees_ret; [exact O|reflexivity]. }
  unfold operator_order.
  (* value *)
  assert (REST : forall h value set, n0 <= List.length h -> okv n0 (SMd t i) h value -> okentry n0 t' k h p ->
    agrees n0 (okfst (okfield n0 t i)) rd_pair (eq (SMd t i)) h
     (happly_ops grow (SMd t i) [OAdd; ODefault; OOneOf; OSubsetOf; OSupersetOf; OEssential] p ess value set)
     (apply_ops [OAdd; ODefault; OOneOf; OSubsetOf; OSupersetOf; OEssential] (read_entry h p) ess (read h value) set)).
  { clear - grow. intros h value set H0 OV OE.
    set (os := [ODefault; OOneOf; OSubsetOf; OSupersetOf; OEssential]).
    assert (NO : ~ In OAdd os) by (cbn; intuition discriminate).
    change [OAdd; ODefault; OOneOf; OSubsetOf; OSupersetOf; OEssential] with (OAdd :: os). clearbody os.
    cbn [happly_ops apply_ops]. unfold get. rewrite lookup_entry.
    destruct (lookup (op_name OAdd) p) as [pv|] eqn:EL; cbn [option_map].
    2:{ eapply happly_ops_ok; eauto. now left. }
    eapply (agrees_bind n0 _ _ _ _ (eq (SMd t i))).
    - apply (happly_add_ok n0 t i t' k (op_name OAdd)); auto. apply OE. apply lookup_In. exact EL.
    - auto.
    - intros [v' s'] h' OV' X. cbn [rd_pair fst snd].
      destruct (ext_okentry _ _ _ _ t' k p X) as [OE2 RE]; [intros ? ? [=]|exact OE|]. rewrite <- RE.
      eapply happly_ops_ok; eauto. apply ext_length in X. lia. }
  set (os := [OAdd; ODefault; OOneOf; OSubsetOf; OSupersetOf; OEssential]) in *. clearbody os.
  cbn [happly_ops apply_ops]. unfold get. rewrite lookup_entry.
  destruct (lookup (op_name OValue) p) as [pv|] eqn:EL; cbn [option_map]; [|apply REST; auto].
  eapply (agrees_bind n0 _ _ _ _ (eq (SMd t i))).
  - eapply (happly_op_ok n0 (okv n0 (SMd t i))); [discriminate|auto|exact OV|].
    apply OE. apply lookup_In. exact EL.
  - auto.
  - intros [v' s'] h' OV' X. cbn [rd_pair fst snd].
    destruct (ext_okentry _ _ _ _ t' k p X) as [OE2 RE]; [intros ? ? [=]|exact OE|]. rewrite <- RE.
    apply REST; auto. apply ext_length in X. lia.
Qed.

Definition rd_field (h : heap) (fx : frow * hval) : frow * gval := (fst fx, read h (snd fx)).

Lemma happly_field_ok n0 t ws p i fv h :
  n0 <= List.length h -> placed h (SMd t i) (snd fv) -> okpolicy n0 t h p ->
  agrees n0 (fun h fx => okfield n0 t i h (snd fx)) rd_field (eq (SMd t i)) h
    (happly_field grow t ws p i fv) (apply_field ws (read_policy h p) (rd_field h fv)).
Proof.
  intros H0 PV OP. destruct fv as [r v]. cbn [happly_field rd_field apply_field fst snd] in *.
  rewrite lookup_policy. destruct (lookup (fr_tag r) p) as [e|] eqn:EL; cbn [option_map].
  2:{ apply agrees_ret; [left; now apply placed_okv|reflexivity]. }
  eapply (agrees_bind n0 _ _ _ _ (eq (SMd t i))).
  - eapply happly_to_ok; [exact H0|now apply placed_okv|]. apply OP. apply lookup_In. exact EL.
  - auto.
  - intros v1 h1 O1 X1.
    assert (SF : exists v2, hscope_fix (fr_name r) v1 h1 = (Ok v2, h1) /\ okfield n0 t i h1 v2 /\
                  read h1 v2 = scope_fix (fr_name r) (read h1 v1)).
    { unfold hscope_fix, look, scope_fix. destruct (String.eqb (fr_name r) "Scope"%string); [|eauto].
      destruct (read h1 v1) as [| | | | | | |tt nn ll] eqn:ER; try (exists v1; rewrite ER; auto; fail).
      destruct tt; try (exists v1; rewrite ER; auto; fail).
      eexists. split; [reflexivity|]. split; [left; exact I|reflexivity]. }
    destruct SF as (v2 & E2 & O2 & R2).
    unfold agrees, bindM. rewrite E2, <- R2. unfold hassign, look, assign.
    destruct (typeof (read h1 v2)) as [t2|].
    + destruct (gty_eqb (fr_ty r) t2); cbn; (split; [apply ext_refl|]); auto.
    + cbn. split; [apply ext_refl|]. split; [left; apply zero_nil_empty|reflexivity].
Qed.

Definition okfields (n0 : nat) (t : etype) (i : nat) (h : heap) (l : list (frow * hval)) : Prop :=
  forall j fx, nth_error l j = Some fx -> okfield n0 t (i + j) h (snd fx).

Definition Wfrom (t : etype) (i : nat) (L : slot) : Prop := exists j, i <= j /\ L = SMd t j.

Lemma happly_fields_ok n0 t ws p l : forall i h,
  n0 <= List.length h -> (forall j fx, nth_error l j = Some fx -> placed h (SMd t (i + j)) (snd fx)) -> okpolicy n0 t h p ->
  agrees n0 (okfields n0 t i) (rd_list rd_field) (Wfrom t i) h
    (happly_fields grow t ws p i l) (map_res (apply_field ws (read_policy h p)) (rd_list rd_field h l)).
Proof.
  induction l as [|fv l IH]; intros i h H0 PL OP; cbn [happly_fields rd_list map map_res].
  { apply agrees_ret; [intros [|j] ? [=]|reflexivity]. }
  eapply (agrees_bind n0 _ _ _ _ (eq (SMd t i))).
  - apply happly_field_ok; auto. specialize (PL 0 fv eq_refl). now rewrite Nat.add_0_r in PL.
  - intros L <-. exists i. auto.
  - intros y h1 OY X1.
    destruct (ext_okpolicy _ _ _ _ t p X1) as [OP2 RP]; [intros ? ? ? [=]|exact OP|].
    assert (RL : map (rd_field h) l = rd_list rd_field h1 l).
    { apply map_ext_in. intros fx I. apply In_nth_error in I. destruct I as (j & J).
      unfold rd_field. f_equal. symmetry. eapply ext_placed; [exact X1|]. exact (PL (S j) fx J). }
    rewrite RL, <- RP.
    eapply (agrees_bind n0 _ _ _ _ (Wfrom t (S i))).
    + apply IH; auto.
      * apply ext_length in X1. lia.
      * intros j fx J. eapply ext_placed; [exact X1|]. specialize (PL (S j) fx J). now rewrite <- plus_n_Sm in PL.
    + intros L (j & Lj & ->). exists j. split; [lia|reflexivity].
    + intros ys h2 OYS X2.
      destruct (ext_okfield _ _ _ _ t i (snd y) X2) as [OY2 RY].
      * intros (j & Lj & [= E]). lia.
      * intros ? ? ? (j & _ & [=]).
      * exact OY.
      * apply agrees_ret.
        -- intros [|j] fx; cbn; [intros [= <-]; now rewrite Nat.add_0_r|]. intros J. specialize (OYS j fx J).
           now rewrite <- plus_n_Sm.
        -- unfold rd_list. cbn [map]. f_equal. unfold rd_field. now rewrite RY.
Qed.

Definition Wmd (t : etype) (L : slot) : Prop := exists j, L = SMd t j.

Definition okmeta (n0 : nat) (t : etype) (h : heap) (m : option hemeta) : Prop :=
  forall em j fx, m = Some em -> nth_error (hm_fields em) j = Some fx -> okfield n0 t j h (snd fx).

Lemma placed_okmeta n0 t h m : placed_meta h t m -> okmeta n0 t h m.
Proof. intros P em j fx E J. left. apply placed_okv. eauto. Qed.

Lemma ext_placed_meta n0 W h h' t m : ext n0 W h h' -> placed_meta h t m ->
  placed_meta h' t m /\ option_map (read_emeta h') m = option_map (read_emeta h) m.
Proof.
  intros X P. split.
  - intros em i fv E J. eapply ext_placed; eauto.
  - destruct m as [em|]; [|reflexivity]. cbn. unfold read_emeta. do 2 f_equal.
    apply map_ext_in. intros fx I. apply In_nth_error in I. destruct I as (j & J). f_equal. eapply ext_placed; eauto.
Qed.

Lemma ext_okmeta n0 (W : slot -> Prop) h h' t m : ext n0 W h h' -> (forall j, ~ W (SMd t j)) -> (forall t k o, ~ W (SPol t k o)) ->
  okmeta n0 t h m -> okmeta n0 t h' m /\ option_map (read_emeta h') m = option_map (read_emeta h) m.
Proof.
  intros X N1 N2 P. split.
  - intros em i fv E J. eapply ext_okfield; eauto.
  - destruct m as [em|]; [|reflexivity]. cbn. unfold read_emeta. do 2 f_equal.
    apply map_ext_in. intros fx I. apply In_nth_error in I. destruct I as (j & J). f_equal.
    eapply ext_okfield; [exact X|apply (N1 j)|exact N2|]. eapply P; eauto.
Qed.

Lemma happly_one_ok n0 t h m p :
  n0 <= List.length h -> placed_meta h t m -> okg n0 t h p ->
  agrees n0 (okmeta n0 t) (rd_opt read_emeta) (Wmd t) h
    (happly_one grow t m p) (apply_one (option_map (read_emeta h) m) (read_gpolicy h p)).
Proof.
  intros H0 PM OP. destruct p as [p|]; cbn [happly_one apply_one read_gpolicy option_map].
  2:{ apply agrees_ret; [now apply placed_okmeta|reflexivity]. }
  destruct m as [em|]; cbn [option_map].
  2:{ apply agrees_ret; [intros ? ? ? [=]|reflexivity]. }
  unfold happly_policy, apply_policy.
  eapply (agrees_bind n0 (fun h em => okmeta n0 t h (Some em)) read_emeta _ _ (Wmd t)).
  - cbn [read_emeta em_set em_fields].
    eapply (agrees_bind n0 _ _ _ _ (Wfrom t 0)).
    + apply (happly_fields_ok n0 t (hm_set em) p (hm_fields em) 0 h); auto.
      intros j fx J. cbn. eapply PM; eauto.
    + intros L (j & _ & ->). exists j. reflexivity.
    + intros fs h1 OF _. apply agrees_ret; [|reflexivity]. intros ? j fx [= <-] J. exact (OF j fx J).
  - auto.
  - intros em' h1 OM _. apply agrees_ret; [exact OM|reflexivity].
Qed.

Record okmd (n0 : nat) (h : heap) (m : hmetadata) : Prop := {
  om_op : okmeta n0 EOP h (hmd_op m);
  om_rp : okmeta n0 ERP h (hmd_rp m);
  om_as : okmeta n0 EAS h (hmd_as m);
  om_oc : okmeta n0 EOC h (hmd_oc m);
  om_pr : okmeta n0 EPR h (hmd_pr m);
  om_fe : okmeta n0 EFE h (hmd_fe m) }.

Definition Wall (L : slot) : Prop := True.

Lemma ext_okpolicies n0 (W : slot -> Prop) h h' p : ext n0 W h h' -> (forall t k o, ~ W (SPol t k o)) -> okpolicies n0 h p ->
  okpolicies n0 h' p /\ read_policies h' p = read_policies h p.
Proof.
  intros X N [P1 P2 P3 P4 P5 P6 P7].
  assert (K : forall t q, okg n0 t h q -> okg n0 t h' q /\ read_gpolicy h' q = read_gpolicy h q) by (intros t q O; eapply ext_okg; eauto).
  split.
  - constructor; try (now apply K). intros k q I. apply K. eauto.
  - unfold read_policies. rewrite (proj2 (K _ _ P1)), (proj2 (K _ _ P2)), (proj2 (K _ _ P3)), (proj2 (K _ _ P4)),
      (proj2 (K _ _ P5)), (proj2 (K _ _ P6)). f_equal.
    apply map_ext_in. intros [k q] I. cbn. f_equal. apply (K _ _ (P7 k q I)).
Qed.

Ltac no_pol := let H := fresh in intros ? ? ? H; unfold Wmd in H; destruct H as [? H]; discriminate H.
Ltac no_md := let H := fresh in intros ? H; unfold Wmd in H; destruct H as [? H]; discriminate H.

Lemma hmd_apply_ok n0 h m p :
  n0 <= List.length h -> placed_metadata h m -> okpolicies n0 h p ->
  agrees n0 (okmd n0) read_metadata Wall h
    (hmd_apply grow m p) (md_apply (read_metadata h m) (Some (read_policies h p))).
Proof.
  intros H0 PM OP. unfold hmd_apply, md_apply.
  assert (STEP : forall h' t (sel : hmetadata -> option hemeta) (selp : hpolicies -> hgpolicy) W,
     ext n0 W h h' -> (forall h, placed_metadata h m -> placed_meta h t (sel m)) -> (forall h, okpolicies n0 h p -> okg n0 t h (selp p)) ->
     okpolicies n0 h' p -> read_policies h' p = read_policies h p ->
     (forall h, read_gpolicy h (selp p) = (match t with EOP => mp_op | ERP => mp_rp | EAS => mp_as | EOC => mp_oc | EPR => mp_pr | _ => mp_fe end) (read_policies h p)) ->
     agrees n0 (okmeta n0 t) (rd_opt read_emeta) (Wmd t) h' (happly_one grow t (sel m) (selp p))
       (apply_one (option_map (read_emeta h) (sel m)) ((match t with EOP => mp_op | ERP => mp_rp | EAS => mp_as | EOC => mp_oc | EPR => mp_pr | _ => mp_fe end) (read_policies h p)))).
  { intros h' t sel selp W X S1 S2 OP' RP' SP.
    destruct (ext_placed_meta _ _ _ _ _ _ X (S1 h PM)) as [PM' RM]. rewrite <- RM, <- RP', <- SP.
    apply happly_one_ok; auto. apply ext_length in X. lia. }
  assert (WA : forall t L, Wmd t L -> Wall L) by (intros; exact I).
  assert (PN : forall t a k o, ~ Wmd t (SPol a k o)) by (intros t a k o (j & [=])).
  assert (EP : forall t ha hb, ext n0 (Wmd t) ha hb -> okpolicies n0 ha p -> okpolicies n0 hb p /\ read_policies hb p = read_policies ha p).
  { intros t ha hb X O. eapply ext_okpolicies; eauto. }
  assert (EM : forall t t' ha hb q, okmeta n0 t ha q -> ext n0 (Wmd t') ha hb -> t <> t' ->
     okmeta n0 t hb q /\ option_map (read_emeta hb) q = option_map (read_emeta ha) q).
  { intros t t' ha hb q O X N. eapply ext_okmeta; eauto. intros j (j' & [= E _]). contradiction. }
  unfold read_metadata at 1. cbn [md_op md_rp md_as md_oc md_pr md_fe md_extra].
  eapply (agrees_bind n0 _ _ _ _ (Wmd EOP)); [apply (STEP h EOP hmd_op hp_op Wall); auto; [apply ext_refl|intros ? []; auto|intros ? []; auto]|apply WA|].
  intros m1 h1 O1 X1. destruct (EP _ _ _ X1 OP) as [OP1 RP1]. pose proof (ext_weaken _ _ _ _ _ (WA EOP) X1) as E1.
  eapply (agrees_bind n0 _ _ _ _ (Wmd ERP)); [apply (STEP h1 ERP hmd_rp hp_rp Wall); auto; [intros ? []; auto|intros ? []; auto]|apply WA|].
  intros m2 h2 O2 X2. destruct (EP _ _ _ X2 OP1) as [OP2 RP2]. pose proof (ext_trans _ _ _ _ _ E1 (ext_weaken _ _ _ _ _ (WA ERP) X2)) as E2.
  eapply (agrees_bind n0 _ _ _ _ (Wmd EAS)); [apply (STEP h2 EAS hmd_as hp_as Wall); auto; [intros ? []; auto|intros ? []; auto|congruence]|apply WA|].
  intros m3 h3 O3 X3. destruct (EP _ _ _ X3 OP2) as [OP3 RP3]. pose proof (ext_trans _ _ _ _ _ E2 (ext_weaken _ _ _ _ _ (WA EAS) X3)) as E3.
  eapply (agrees_bind n0 _ _ _ _ (Wmd EOC)); [apply (STEP h3 EOC hmd_oc hp_oc Wall); auto; [intros ? []; auto|intros ? []; auto|congruence]|apply WA|].
  intros m4 h4 O4 X4. destruct (EP _ _ _ X4 OP3) as [OP4 RP4]. pose proof (ext_trans _ _ _ _ _ E3 (ext_weaken _ _ _ _ _ (WA EOC) X4)) as E4.
  eapply (agrees_bind n0 _ _ _ _ (Wmd EPR)); [apply (STEP h4 EPR hmd_pr hp_pr Wall); auto; [intros ? []; auto|intros ? []; auto|congruence]|apply WA|].
  intros m5 h5 O5 X5. destruct (EP _ _ _ X5 OP4) as [OP5 RP5]. pose proof (ext_trans _ _ _ _ _ E4 (ext_weaken _ _ _ _ _ (WA EPR) X5)) as E5.
  eapply (agrees_bind n0 _ _ _ _ (Wmd EFE)); [apply (STEP h5 EFE hmd_fe hp_fe Wall); auto; [intros ? []; auto|intros ? []; auto|congruence]|apply WA|].
  intros m6 h6 O6 X6. destruct (EP _ _ _ X6 OP5) as [OP6 RP6].
  assert (RP : read_policies h6 p = read_policies h p) by congruence.
  apply agrees_look_bind; [now rewrite RP|]. intros ex.
  destruct (EM _ _ _ _ _ O1 X2) as [O1a R1a]; [discriminate|].
  destruct (EM _ _ _ _ _ O1a X3) as [O1b R1b]; [discriminate|].
  destruct (EM _ _ _ _ _ O1b X4) as [O1c R1c]; [discriminate|].
  destruct (EM _ _ _ _ _ O1c X5) as [O1d R1d]; [discriminate|].
  destruct (EM _ _ _ _ _ O1d X6) as [O1e R1e]; [discriminate|].
  destruct (EM _ _ _ _ _ O2 X3) as [O2b R2b]; [discriminate|].
  destruct (EM _ _ _ _ _ O2b X4) as [O2c R2c]; [discriminate|].
  destruct (EM _ _ _ _ _ O2c X5) as [O2d R2d]; [discriminate|].
  destruct (EM _ _ _ _ _ O2d X6) as [O2e R2e]; [discriminate|].
  destruct (EM _ _ _ _ _ O3 X4) as [O3c R3c]; [discriminate|].
  destruct (EM _ _ _ _ _ O3c X5) as [O3d R3d]; [discriminate|].
  destruct (EM _ _ _ _ _ O3d X6) as [O3e R3e]; [discriminate|].
  destruct (EM _ _ _ _ _ O4 X5) as [O4d R4d]; [discriminate|].
  destruct (EM _ _ _ _ _ O4d X6) as [O4e R4e]; [discriminate|].
  destruct (EM _ _ _ _ _ O5 X6) as [O5e R5e]; [discriminate|].
  apply agrees_ret.
  - constructor; cbn; assumption.
  - unfold read_metadata, rd_opt. cbn. f_equal; congruence.
Qed.

Definition okresult (n0 : nat) : heap -> option hmetadata -> Prop := okopt (okmd n0).

Lemma placed_okmd n0 h m : placed_metadata h m -> okmd n0 h m.
Proof. intros []. constructor; now apply placed_okmeta. Qed.

Lemma crit_read h c : unsupported_crit (map (read_stmt h) c) = unsupported_crit (map hs_stmt c).
Proof.
  unfold unsupported_crit. do 2 f_equal. induction c as [|s c IH]; [reflexivity|]. cbn [map flat_map]. now rewrite IH.
Qed.

(** The metadata of a chain. *)
Theorem hchain_metadata_ok n0 h c :
  n0 <= List.length h -> decoded_chain h c ->
  agrees n0 (okresult n0) (rd_opt read_metadata) Wall h
    (hchain_metadata grow c) (chain_metadata (map (read_stmt h) c)).
Proof.
  intros H0 D. destruct c as [|s [|s' c]].
  - split; [apply ext_refl|exact I].
  - cbn [map hchain_metadata chain_metadata]. apply agrees_ret; [|reflexivity].
    intros m E. apply placed_okmd. apply (D s); [now left|exact E].
  - set (r := s' :: c) in *.
    change (chain_metadata (map (read_stmt h) (s :: r))) with
      (match unsupported_crit (map (read_stmt h) (s :: r)) with
       | _ :: _ => Err
       | [] => p <- merge_policies (map st_policy (map (read_stmt h) (s :: r))) ;;
               m <- md_apply (match option_map (read_metadata h) (hs_metadata s) with Some m => m | None => empty_metadata end) (Some p) ;;
               Ok (Some m)
       end).
    change (hchain_metadata grow (s :: r)) with
      (match unsupported_crit (map hs_stmt (s :: r)) with
       | _ :: _ => lift Err
       | [] => bindM (hmerge_policies grow (map hs_policy (s :: r))) (fun p =>
               bindM (hmd_apply grow (match hs_metadata s with Some m => m | None => hempty_metadata end) p) (fun m =>
               ret (Some m)))
       end).
    rewrite crit_read. destruct (unsupported_crit (map hs_stmt (s :: r))); [|split; [apply ext_refl|exact I]].
    assert (EPOL : map st_policy (map (read_stmt h) (s :: r)) = map (option_map (read_policies h)) (map hs_policy (s :: r))).
    { rewrite !map_map. reflexivity. }
    rewrite EPOL.
    eapply (agrees_bind n0 _ _ _ _ Wpol).
    + apply hmerge_policies_ok; [exact H0|]. intros p I. apply in_map_iff in I. destruct I as (x & E & I). now apply (D x I).
    + intros; exact I.
    + intros p h1 OP X.
      assert (EM : exists hm, (match hs_metadata s with Some m => m | None => hempty_metadata end) = hm /\ placed_metadata h hm /\
         (match option_map (read_metadata h) (hs_metadata s) with Some m => m | None => empty_metadata end) = read_metadata h hm).
      { destruct (hs_metadata s) as [m|] eqn:E.
        - exists m. split; [reflexivity|]. split; [|reflexivity]. apply (D s); [now left|exact E].
        - exists hempty_metadata. split; [reflexivity|]. split; [|reflexivity]. constructor; intros ? ? ? [=]. }
      destruct EM as (hm & -> & PM & ->).
      assert (PM1 : placed_metadata h1 hm /\ read_metadata h1 hm = read_metadata h hm).
      { destruct PM as [Q1 Q2 Q3 Q4 Q5 Q6].
        assert (K : forall t q, placed_meta h t q -> placed_meta h1 t q /\ option_map (read_emeta h1) q = option_map (read_emeta h) q)
          by (intros t q O; eapply ext_placed_meta; eauto).
        split; [constructor; now apply K|]. unfold read_metadata.
        now rewrite (proj2 (K _ _ Q1)), (proj2 (K _ _ Q2)), (proj2 (K _ _ Q3)), (proj2 (K _ _ Q4)), (proj2 (K _ _ Q5)), (proj2 (K _ _ Q6)). }
      destruct PM1 as [PM1 <-].
      eapply (agrees_bind n0 _ _ _ _ Wall).
      * apply hmd_apply_ok; auto. apply ext_length in X. lia.
      * auto.
      * intros m h2 OM _. apply agrees_ret; [|reflexivity]. intros ? [= <-]. exact OM.
Qed.

(** ** Histories *)

Lemma ext_decoded n0 W h h' s : ext n0 W h h' -> decoded h s -> decoded h' s /\ read_stmt h' s = read_stmt h s.
Proof.
  intros X [P1 P2].
  assert (KM : forall m, placed_metadata h m -> placed_metadata h' m /\ read_metadata h' m = read_metadata h m).
  { intros m [Q1 Q2 Q3 Q4 Q5 Q6].
    assert (K : forall t q, placed_meta h t q -> placed_meta h' t q /\ option_map (read_emeta h') q = option_map (read_emeta h) q)
      by (intros t q O; eapply ext_placed_meta; eauto).
    split; [constructor; now apply K|]. unfold read_metadata.
    now rewrite (proj2 (K _ _ Q1)), (proj2 (K _ _ Q2)), (proj2 (K _ _ Q3)), (proj2 (K _ _ Q4)), (proj2 (K _ _ Q5)), (proj2 (K _ _ Q6)). }
  split.
  - split; [intros p E; eapply ext_placed_policies; eauto|intros m E; apply KM; auto].
  - unfold read_stmt. f_equal.
    + destruct (hs_metadata s) as [m|]; [|reflexivity]. cbn. f_equal. apply KM. auto.
    + destruct (hs_policy s) as [p|]; [|reflexivity]. cbn. f_equal. eapply ext_placed_policies; eauto.
Qed.

Lemma run_ext c h : decoded_chain h c -> ext (List.length h) Wall h (snd (hchain_metadata grow c h)).
Proof. intros D. apply (hchain_metadata_ok (List.length h) h c); [lia|exact D]. Qed.

Lemma run_all_decoded cs : forall h s, (forall c, In c cs -> decoded_chain h c) -> decoded h s ->
  decoded (run_all grow cs h) s /\ read_stmt (run_all grow cs h) s = read_stmt h s.
Proof.
  induction cs as [|c cs IH]; intros h s D Ds; cbn [run_all]; [auto|].
  assert (X := run_ext c h (D c (or_introl eq_refl))).
  destruct (ext_decoded _ _ _ _ s X Ds) as [Ds' R]. rewrite <- R. apply IH; [|exact Ds'].
  intros c' I s' I'. eapply ext_decoded; [exact X|]. eapply D; [right; exact I|exact I'].
Qed.

(** Computing metadata leaves every decoded statement as it was. *)
Theorem statements_unchanged cs h s :
  (forall c, In c cs -> decoded_chain h c) -> decoded h s -> read_stmt (run_all grow cs h) s = read_stmt h s.
Proof. intros D Ds. now apply run_all_decoded. Qed.

(** The outcome does not depend on what was computed before. *)
Theorem history_independent cs c h :
  (forall c', In c' cs -> decoded_chain h c') -> decoded_chain h c ->
  seen (snd (hchain_metadata grow c (run_all grow cs h))) (fst (hchain_metadata grow c (run_all grow cs h)))
  = chain_metadata (map (read_stmt h) c).
Proof.
  intros D Dc. set (h1 := run_all grow cs h).
  assert (D1 : decoded_chain h1 c) by (intros s I; apply run_all_decoded; auto).
  assert (R1 : map (read_stmt h1) c = map (read_stmt h) c).
  { apply map_ext_in. intros s I. apply run_all_decoded; auto. }
  destruct (hchain_metadata_ok 0 h1 c (Nat.le_0_l _) D1) as [_ A]. rewrite R1 in A.
  destruct (fst (hchain_metadata grow c h1)), (chain_metadata _); try contradiction; auto.
  destruct A as [_ <-]. reflexivity.
Qed.

(** Without spare capacity, earlier results stay as they were. *)
Lemma ext_result n0 h h' m : n0 <= List.length h -> okmd n0 h m -> no_spare h ->
  ext (List.length h) Wall h h' -> okmd n0 h' m /\ read_metadata h' m = read_metadata h m.
Proof.
  intros H0 O NS [_ X].
  assert (KV : forall L x, okv n0 L h x -> okv n0 L h' x /\ read h' x = read h x).
  { intros L x. destruct x as [v|t a n]; cbn; [auto|]. intros (c & E & S & Ln & B).
    destruct (X a c E) as (c' & E' & S' & B' & D & P & _ & O'). subst L. split.
    - exists c'. rewrite E', S', B', D. auto.
    - rewrite (data_nth _ _ _ E'), (data_nth _ _ _ E). f_equal. f_equal.
      destruct (c_base c) as [b|] eqn:EB.
      + assert (LB := NS a c b E EB). specialize (P b eq_refl).
        rewrite firstn_all2 in P by lia. rewrite firstn_all2 in P by lia. exact P.
      + apply O'; [reflexivity|]. apply nth_error_Some. congruence. }
  assert (KF : forall t i x, okfield n0 t i h x -> okfield n0 t i h' x /\ read h' x = read h x).
  { intros t i x [F|(t' & k & o & F)]; destruct (KV _ _ F); split; auto; [now left|right; eauto]. }
  assert (KM : forall t q, okmeta n0 t h q -> okmeta n0 t h' q /\ option_map (read_emeta h') q = option_map (read_emeta h) q).
  { intros t q F. split.
    - intros em j fx E J. apply KF. eauto.
    - destruct q as [em|]; [|reflexivity]. cbn. unfold read_emeta. do 2 f_equal. apply map_ext_in.
      intros fx I. apply In_nth_error in I. destruct I as (j & J). f_equal. eapply KF. eauto. }
  destruct O as [Q1 Q2 Q3 Q4 Q5 Q6]. split; [constructor; now apply KM|]. unfold read_metadata.
  now rewrite (proj2 (KM _ _ Q1)), (proj2 (KM _ _ Q2)), (proj2 (KM _ _ Q3)), (proj2 (KM _ _ Q4)), (proj2 (KM _ _ Q5)), (proj2 (KM _ _ Q6)).
Qed.

Lemma ext_no_spare n0 W h h' : ext n0 W h h' -> no_spare h -> no_spare h'.
Proof.
  intros [[_ F] X] NS a c' n E B. destruct (nth_error h a) as [c|] eqn:Ea.
  - destruct (X a c Ea) as (c2 & E2 & _ & B2 & D & _). assert (c2 = c') by congruence. subst c2.
    rewrite D. eapply NS; eauto. congruence.
  - apply nth_error_None in Ea. rewrite (F a c' E Ea) in B. discriminate.
Qed.

Lemma run_all_result n0 cs m : forall h, n0 <= List.length h -> okmd n0 h m -> no_spare h ->
  (forall c, In c cs -> decoded_chain h c) -> read_metadata (run_all grow cs h) m = read_metadata h m.
Proof.
  induction cs as [|c cs IH]; intros h H0 O NS D; cbn [run_all]; [reflexivity|].
  assert (X := run_ext c h (D c (or_introl eq_refl))).
  destruct (ext_result n0 h _ m H0 O NS X) as [O' R]. rewrite <- R. apply IH.
  - apply ext_length in X. lia.
  - exact O'.
  - eapply ext_no_spare; eauto.
  - intros c' I s I'. eapply ext_decoded; [exact X|]. eapply D; [right; exact I|exact I'].
Qed.

(** Without spare capacity, what one computation returned is not changed by later ones. *)
Theorem results_unchanged c cs h m :
  no_spare h -> decoded_chain h c -> (forall c', In c' cs -> decoded_chain h c') ->
  fst (hchain_metadata grow c h) = Ok (Some m) ->
  read_metadata (run_all grow cs (snd (hchain_metadata grow c h))) m = read_metadata (snd (hchain_metadata grow c h)) m.
Proof.
  intros NS Dc D E.
  destruct (hchain_metadata_ok 0 h c (Nat.le_0_l _) Dc) as [X A]. rewrite E in A.
  destruct (chain_metadata _); try contradiction. destruct A as [O _].
  apply (run_all_result 0); [lia|now apply O|eapply ext_no_spare; eauto|].
  intros c' I s I'. eapply ext_decoded; [exact X|]. eapply D; eauto.
Qed.

End Proofs.
