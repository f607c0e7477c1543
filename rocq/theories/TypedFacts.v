(** Policies keep the Go types of attributes. *)
From Coq Require Import QArith Lia.
From Verif Require Import Base BaseFacts GoVal Policy Schema Metadata MetadataFacts SpecMetadata Chain SpecChain ChainFacts FloatTime Json SpecJson TrustMark Config Encode SpecEncode.
From Verif Require Import GoVal.
Local Open Scope nat_scope.
Local Open Scope string_scope.

(** An operand that has been decoded from JSON, or merged from such. *)
Inductive operand : gval -> Prop :=
| operand_json v : of_type TAny v -> operand v
| operand_list t n l : (n = true -> l = []) -> (forall w, In w l -> of_type TAny w /\ (t = TAny \/ typeof w = Some t)) -> operand (VSlice t n l).
(** A value of its own type. *)
Definition typed (v : gval) : Prop := match typeof v with None => True | Some t => of_type t v end.

Lemma map_id_in {A} (f : A -> A) l : map f l = l -> forall x, In x l -> f x = x.
Proof. induction l as [|y l IH]; intros H x I; [destruct I|]. injection H as H1 H2. destruct I as [<-|I]; auto. Qed.
Lemma any_list t n l : of_type TAny (VSlice t n l) -> t = TAny /\ n = false /\ forall w, In w l -> of_type TAny w.
Proof.
  intros [P R]. destruct n; [discriminate R|]. cbn [as_read] in R. injection R as T R. split; [auto|]. split; [reflexivity|].
  intros w I. split; [|now apply (map_id_in as_read l)]. inversion P; subst. rewrite Forall_forall in *. auto.
Qed.
Lemma any_object t n kv : of_type TAny (VMap t n kv) -> t = TAny /\ n = false /\ NoDup (keys kv) /\ forall k w, In (k, w) kv -> of_type TAny w.
Proof.
  intros [P R]. destruct n; [discriminate R|]. cbn [as_read] in R. injection R as T R. split; [auto|]. split; [reflexivity|]. inversion P; subst. split; [assumption|].
  intros k w I. split.
  - rewrite Forall_forall in *. now apply (H3 (k, w)).
  - pose proof (map_id_in _ kv R (k, w) I) as E. now injection E.
Qed.
Lemma read_no_keys v p : as_read v <> VJwks p.
Proof.
  enough (H : (forall v, as_read v <> VJwks p)) by auto. fix IH 1. intros [| | | | |q|t n kv|t n l]; cbn [as_read]; try discriminate.
  - destruct q as [w|]; [apply IH|discriminate].
  - destruct n; discriminate.
  - destruct n; discriminate.
Qed.
Lemma any_typed v : of_type TAny v -> typed v.
Proof.
  intros H. unfold typed. destruct v as [| | | | |q|t n kv|t n l]; cbn [typeof]; try exact I; try (cbn; eauto; fail).
  - destruct H as [_ H]. destruct q; [|discriminate H]. cbn [as_read] in H. now apply read_no_keys in H.
  - destruct (any_object _ _ _ H) as (-> & -> & N & K). right. eauto.
  - destruct (any_list _ _ _ H) as (-> & -> & K). right. eauto.
Qed.
Lemma any_of_type t w : of_type TAny w -> t = TAny \/ typeof w = Some t -> of_type t w.
Proof. intros A [-> | E]; [exact A|]. pose proof (any_typed w A) as T. unfold typed in T. now rewrite E in T. Qed.
Lemma type_typed t v : of_type t v -> typed v.
Proof.
  destruct t; intros H; try (destruct H as [x ->]; unfold typed; cbn; eauto; fail).
  - now apply any_typed.
  - unfold typed. destruct H as [-> | (kv & -> & H)]; cbn; eauto.
  - unfold typed. destruct H as [-> | (kv & -> & H)]; cbn; eauto.
  - unfold typed. destruct H as [-> | (kv & -> & H)]; cbn; eauto.
Qed.
Lemma operand_typed v : operand v -> typed v.
Proof.
  intros [w A|t n l N E]; [now apply any_typed|]. unfold typed. cbn [typeof of_type]. destruct n.
  - left. now rewrite N.
  - right. exists l. split; [reflexivity|]. intros w I. destruct (E w I). now apply any_of_type.
Qed.

(** The elements of an operand *)
Definition from_json (t : gty) (w : gval) : Prop := of_type TAny w /\ (t = TAny \/ typeof w = Some t).
Lemma slicified v t n l : operand v -> slicify v = VSlice t n l -> (n = true -> l = []) /\ forall w, In w l -> from_json t w.
Proof.
  intros [w A|t' n' l' N E] H.
  - destruct w as [| | | | |q|t' n' kv|t' n' l']; cbn [slicify typeof] in H; try discriminate H; injection H as <- <- <-;
      try (split; [discriminate|]; intros w [<-|[]]; split; [exact A|right; reflexivity]).
    destruct (any_list _ _ _ A) as (-> & -> & K). split; [discriminate|]. intros w I. split; auto.
  - cbn [slicify] in H. injection H as <- <- <-. auto.
Qed.
Lemma typed_elements t n l : typed (VSlice t n l) -> (n = true -> l = []) /\ forall w, In w l -> of_type t w.
Proof.
  unfold typed. cbn [typeof of_type]. intros [[= -> ->] | (l' & [= -> <-] & H)]; split; auto; try discriminate. intros w [].
Qed.
Lemma typed_slicify v : typed v -> typed (slicify v).
Proof.
  intros H. destruct v; try exact H; unfold typed in *; cbn [slicify typeof] in *; cbn [of_type]; right; eexists; (split; [reflexivity|]); intros w [<-|[]]; exact H.
Qed.
Lemma slice_typed t n l : (n = true -> l = []) -> (forall w, In w l -> of_type t w) -> typed (VSlice t n l).
Proof. intros N H. unfold typed. cbn [typeof of_type]. destruct n; [left; now rewrite N|right; eauto]. Qed.

Lemma gty_eqb_true a : forall b, gty_eqb a b = true -> a = b.
Proof. induction a; intros [] H; try discriminate H; cbn in H; f_equal; auto. Qed.
Lemma cast_same src dst w w' : from_json src w -> cast_elem src dst w = Ok w' -> w' = w /\ from_json dst w.
Proof.
  intros [A T] H. destruct dst; cbn [cast_elem] in H.
  1: injection H as <-; split; [reflexivity|split; auto].
  1-4: destruct w; try discriminate H; injection H as <-; (split; [reflexivity|split; [exact A|right; reflexivity]]).
  all: destruct (gty_eqb src _) eqn:G; try discriminate H; apply gty_eqb_true in G; subst src; injection H as <-; (split; [reflexivity|split; [exact A|exact T]]).
Qed.
Lemma cast_all src dst l : forall l', (forall w, In w l -> from_json src w) -> map_res (cast_elem src dst) l = Ok l' -> forall w, In w l' -> from_json dst w.
Proof.
  induction l as [|x l IH]; intros l' F H w I; cbn [map_res] in H.
  - injection H as <-. destruct I.
  - apply bind_ok in H as (y & Hy & H). apply bind_ok in H as (ys & Hs & [= <-]). destruct (cast_same _ _ _ _ (F x (or_introl eq_refl)) Hy) as [-> J].
    destruct I as [<-|I]; [exact J|]. eapply IH; eauto. intros z Hz. apply F. now right.
Qed.
Lemma cast_list src n l nt r : (forall w, In w l -> from_json src w) -> slice_cast (VSlice src n l) nt = Ok r ->
  exists dst l', typeof nt = Some (TSlice dst) /\ r = VSlice dst false l' /\ forall w, In w l' -> from_json dst w.
Proof.
  intros F H. cbn [slice_cast] in H. destruct (typeof nt) as [[]|] eqn:T; try discriminate H. apply bind_ok in H as (l' & M & [= <-]).
  exists t, l'. split; [reflexivity|]. split; [reflexivity|]. exact (cast_all _ _ _ _ F M).
Qed.
Lemma union_in bs : forall out w, In w (union_loop out bs) -> In w out \/ In w bs.
Proof.
  induction bs as [|b bs IH]; intros out w H; cbn [union_loop] in H; [now left|].
  destruct (existsb (deep_eq b) out); apply IH in H as [H|H]; auto; [right; now right| |right; now right].
  apply in_app_iff in H as [H|[<-|[]]]; auto. right. now left.
Qed.

(** Union: the elements of both, in a list of the first type. *)
Lemma union_result a b r : operand b -> union a b = Ok r ->
  exists ta na la, slicify a = VSlice ta na la /\
    (r = VSlice ta na la \/ exists l, r = VSlice ta false l /\ forall w, In w l -> In w la \/ from_json ta w).
Proof.
  intros B H. unfold union in H. destruct (slicify a) as [| | | | | | |ta na la] eqn:Ea; try discriminate H. exists ta, na, la. split; [reflexivity|].
  destruct (slicify b) as [| | | | | | |tb nb lb] eqn:Eb; try discriminate H. destruct (slicified b _ _ _ B Eb) as [_ F].
  destruct lb as [|y lb]; [injection H as <-; now left|]. right. destruct la as [|x la].
  - destruct (cast_list _ _ _ _ _ F H) as (dst & l' & [= <-] & -> & G). exists l'. split; [reflexivity|]. intros w I. right. auto.
  - apply bind_ok in H as (bs & Hb & H). apply bind_ok in H as (lb' & El & [= <-]). eexists. split; [reflexivity|]. intros w I. apply union_in in I as [I|I]; [now left|right].
    destruct (gty_eqb ta tb) eqn:G.
    + apply gty_eqb_true in G. subst tb. injection Hb as <-. injection El as <-. auto.
    + destruct (cast_list _ _ _ _ _ F Hb) as (dst & l' & [= <-] & -> & G'). injection El as <-. auto.
Qed.
Lemma intersect_result a b r : intersect a b = Ok r ->
  exists ta na la l, slicify a = VSlice ta na la /\ r = VSlice ta (match l with [] => true | _ => false end) l /\ forall w, In w l -> In w la.
Proof.
  intros H. unfold intersect in H. destruct (slicify a) as [| | | | | | |ta na la] eqn:Ea; try discriminate H.
  destruct (slicify b) as [| | | | | | |tb nb lb] eqn:Eb; try discriminate H. apply bind_ok in H as (bs & Hb & [= <-]).
  exists ta, na, la. eexists. split; [reflexivity|]. split; [reflexivity|]. intros w I. now apply filter_In in I.
Qed.
Lemma emptied {A} (l : list A) : (match l with [] => true | _ => false end) = true -> l = [].
Proof. destruct l; [reflexivity|discriminate]. Qed.

Lemma merge_op_operand o a b c : operand a -> operand b -> merge_op o a b = Ok c -> operand c.
Proof.
  intros A B. assert (U : union a b = Ok c -> operand c).
  { intros H. destruct (union_result a b c B H) as (ta & na & la & Ea & [-> | (l & -> & F)]); destruct (slicified a _ _ _ A Ea) as [N G]; apply operand_list; auto; [discriminate|].
    intros w I. destruct (F w I) as [J|J]; [now apply G|exact J]. }
  assert (X : intersect a b = Ok c -> operand c).
  { intros H. destruct (intersect_result a b c H) as (ta & na & la & l & Ea & -> & F). destruct (slicified a _ _ _ A Ea) as [N G]. apply operand_list; [apply emptied|].
    intros w I. apply G. auto. }
  assert (E : (e <- slice_equal a b ;; (if e then Ok a else Err)) = Ok c -> operand c).
  { intros H. apply bind_ok in H as ([] & _ & H); [injection H as <-; exact A|discriminate H]. }
  assert (Y : forall x, operand (VBool x)) by (intros x; apply operand_json; split; [constructor|reflexivity]).
  destruct o; cbn [merge_op]; intros H.
  - auto.
  - destruct (is_nil a); [injection H as <-; exact B|]. destruct (is_nil b); [injection H as <-; exact A|auto].
  - destruct (is_nil a); [injection H as <-; exact B|]. destruct (is_nil b); [injection H as <-; exact A|auto].
  - destruct (is_nil a); [injection H as <-; exact B|]. destruct (is_nil b); [injection H as <-; exact A|auto].
  - destruct (is_nil a); [injection H as <-; exact B|]. destruct (is_nil b); [injection H as <-; exact A|auto].
  - destruct (is_nil a); [injection H as <-; exact B|]. destruct (is_nil b); [injection H as <-; exact A|auto].
  - destruct a; destruct b; injection H as <-; apply Y.
Qed.

(** Values *)
Lemma cast_typed pv value r : operand pv -> slice_cast pv (slicify value) = Ok r -> typed r.
Proof.
  intros P H. destruct pv as [| | | | | | |src n l] eqn:E; try (injection H as <-; now apply operand_typed).
  assert (F : forall w, In w l -> from_json src w) by (apply (slicified (VSlice src n l) src n l P eq_refl)).
  destruct (cast_list _ _ _ _ _ F H) as (dst & l' & _ & -> & G). apply slice_typed; [discriminate|]. intros w I. destruct (G w I). now apply any_of_type.
Qed.
Lemma apply_op_typed o value set pv ess v s : operand pv -> typed value -> apply_op o value set pv ess = Ok (v, s) -> typed v.
Proof.
  intros P T H. destruct o; cbn [apply_op] in H.
  - destruct (is_nil pv); [injection H as <- <-; exact I|]. apply bind_ok in H as (r & Hr & [= <- <-]). exact (cast_typed _ _ _ P Hr).
  - destruct (is_nil value); [injection H as <- <-; now apply operand_typed|]. destruct (is_nil pv); [injection H as <- <-; exact T|].
    apply bind_ok in H as (r & Hr & [= <- <-]). destruct (union_result _ _ _ P Hr) as (ta & na & la & Ea & C). pose proof (typed_slicify _ T) as S. rewrite Ea in S.
    destruct C as [-> | (l & -> & F)]; [exact S|]. apply typed_elements in S as [_ G]. apply slice_typed; [discriminate|].
    intros w I. destruct (F w I) as [J|[J K]]; [auto|now apply any_of_type].
  - destruct set; [injection H as <- <-; exact T|]. cbn [negb] in H. apply bind_ok in H as (z & _ & H). destruct z; [|injection H as <- <-; exact T].
    apply bind_ok in H as (r & Hr & [= <- <-]). exact (cast_typed _ _ _ P Hr).
  - destruct (_ && _)%bool; [injection H as <- <-; exact T|]. destruct (is_nil pv); [injection H as <- <-; exact T|]. destruct (negb set); [discriminate H|].
    destruct (slice_contains _ _); [injection H as <- <-; exact T|discriminate H].
  - destruct (_ && _)%bool; [injection H as <- <-; exact T|]. destruct (is_nil pv); [injection H as <- <-; exact T|]. destruct (negb set); [discriminate H|].
    apply bind_ok in H as (r & Hr & [= <- <-]). destruct (intersect_result _ _ _ Hr) as (ta & na & la & l & Ea & -> & F).
    pose proof (typed_slicify _ (typed_slicify _ T)) as S. rewrite Ea in S. apply typed_elements in S as [_ G]. apply slice_typed; [apply emptied|auto].
  - destruct (_ && _)%bool; [injection H as <- <-; exact T|]. destruct (is_nil pv); [injection H as <- <-; exact T|]. destruct (negb set); [discriminate H|].
    apply bind_ok in H as (b & _ & H). destruct b; [injection H as <- <-; exact T|discriminate H].
  - destruct pv as [|[]| | | | | |]; try (injection H as <- <-; exact T). destruct (is_nil value); [discriminate H|]. destruct (is_slice value); [injection H as <- <-; exact T|].
    apply bind_ok in H as (b & _ & H). destruct b; [discriminate H|injection H as <- <-; exact T].
Qed.

Definition operands_ok (e : entry) : Prop := forall k v, In (k, v) e -> operand v.
(** A policy for named attributes with JSON operands. "-" would name the map of additional
    members (C12). *)
Definition attributes_only (p : policy) : Prop := forall k e, In (k, e) p -> k <> "-" /\ operands_ok e.

Lemma apply_ops_typed os e ess : operands_ok e -> forall value set v s, typed value -> apply_ops os e ess value set = Ok (v, s) -> typed v.
Proof.
  intros E. induction os as [|o os IH]; intros value set v s T H; cbn [apply_ops] in H; [injection H as <- <-; exact T|].
  destruct (get o e) as [pv|] eqn:G; [|eauto]. apply bind_ok in H as ([v' s'] & H1 & H2). apply (IH v' s' v s); [|exact H2].
  eapply apply_op_typed; [|exact T|exact H1]. apply (E (op_name o)). now apply lookup_In.
Qed.
Lemma apply_to_typed e value set v : operands_ok e -> typed value -> apply_to e value set = Ok v -> typed v.
Proof. intros E T H. unfold apply_to in H. apply bind_ok in H as ([v' s'] & H & [= <-]). exact (apply_ops_typed _ _ _ E _ _ _ _ T H). Qed.
Lemma scope_typed n v : typed v -> typed (scope_fix n v).
Proof. intros T. unfold scope_fix. destruct (String.eqb n "Scope"); [|exact T]. destruct v as [| | | | | | |[] ? ?]; try exact T. unfold typed. cbn. eauto. Qed.
Lemma zero_typed t : of_type t (zero_of t).
Proof. destruct t; cbn; eauto. split; [constructor|reflexivity]. Qed.
Lemma assign_typed t v v' : typed v -> assign t v = Ok v' -> of_type t v'.
Proof.
  intros T H. unfold assign, typed in *. destruct (typeof v) as [t'|]; [|injection H as <-; apply zero_typed].
  destruct (gty_eqb t t') eqn:G; [|discriminate H]. apply gty_eqb_true in G. subst t'. injection H as <-. exact T.
Qed.
Lemma field_typed ws p r v r' v' : attributes_only p -> apply_field ws p (r, v) = Ok (r', v') ->
  r' = r /\ (of_type (fr_ty r) v -> of_type (fr_ty r) v') /\ (fr_tag r = "-" -> v' = v).
Proof.
  intros P H. cbn [apply_field] in H. destruct (lookup (fr_tag r) p) as [e|] eqn:L; [|injection H as <- <-; auto].
  apply lookup_In in L. destruct (P _ _ L) as [N E]. apply bind_ok in H as (x & Hx & H). apply bind_ok in H as (y & Hy & [= <- <-]).
  split; [reflexivity|]. split; [|congruence]. intros T. eapply assign_typed; [|exact Hy]. apply scope_typed. eapply apply_to_typed; [exact E| |exact Hx]. eapply type_typed; exact T.
Qed.
