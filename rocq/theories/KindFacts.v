(** Policies on attributes of other types than lists of texts: proofs. *)
From Coq Require Import QArith Lia.
From Verif Require Import Base BaseFacts GoVal Policy Schema Metadata SpecPolicy Json Statement SpecStatement StatementFacts StatementLaws SpecEncode SpecGeneral.
From Verif Require Import GoVal.
Local Open Scope nat_scope.
Local Open Scope string_scope.

Lemma only_op o x v set : apply_to [(op_name o, x)] v set = ('(v1, _) <- apply_op o v set x (match o, x with OEssential, VBool b => b | _, _ => false end) ;; Ok v1).
Proof.
  destruct o; unfold apply_to, operator_order, entry_essential; cbn [apply_ops]; unfold get; cbn [op_name lookup];
    match goal with |- context [apply_op ?o ?a ?b ?c ?d] => change d with (match o, c with OEssential, VBool b => b | _, _ => false end) at 1 | _ => idtac end;
    cbn -[apply_op]; try (destruct (apply_op _ _ _ _ _) as [[]| |]; reflexivity).
Qed.

Lemma given_tags m r j : given_as m r j -> NoDup (map fr_tag (map fst (em_fields m))).
Proof.
  intros [H _]. remember (map fst (em_fields m)) as sch eqn:E. clear E.
  assert (B : forallb (fun sch => MetadataFacts.nodupb (map fr_tag sch)) [op_schema; rp_schema; pr_schema; fe_schema] = true) by (vm_compute; reflexivity).
  rewrite forallb_forall in B. apply MetadataFacts.nodupb_NoDup. now apply B.
Qed.

(** A policy on a single attribute. *)
Lemma one_attribute ws r v e l : NoDup (map fr_tag (map fst l)) -> In (r, v) l ->
  map_res (apply_field ws [(fr_tag r, e)]) l =
  (y <- apply_field ws [(fr_tag r, e)] (r, v) ;; Ok (map (fun fv : frow * gval => if String.eqb (fr_tag (fst fv)) (fr_tag r) then y else fv) l)).
Proof.
  assert (skip : forall l, ~ In (fr_tag r) (map fr_tag (map fst l)) -> map_res (apply_field ws [(fr_tag r, e)]) l = Ok l /\ forall y, map (fun fv : frow * gval => if String.eqb (fr_tag (fst fv)) (fr_tag r) then y else fv) l = l).
  { induction l0 as [|[r' v'] l0 IH]; cbn [map fst map_res]; intros N; [auto|]. destruct IH as [IH1 IH2]; [intros K; apply N; now right|].
    assert (D : String.eqb (fr_tag r') (fr_tag r) = false) by (apply String.eqb_neq; intros E; apply N; left; exact E).
    split; [|intros y; rewrite IH2; now rewrite D]. unfold apply_field at 1. cbn [lookup]. rewrite D. cbn [bind]. now rewrite IH1. }
  induction l as [|[r' v'] l IH]; cbn [map fst map_res]; intros N I; [destruct I|]. inversion N as [|? ? Hn N']; subst. destruct I as [[= -> ->]|I].
  - destruct (skip l Hn) as [S1 S2]. rewrite S1, String.eqb_refl. destruct (apply_field ws [(fr_tag r, e)] (r, v)); cbn [bind]; try reflexivity. now rewrite S2.
  - assert (D : String.eqb (fr_tag r') (fr_tag r) = false).
    { apply String.eqb_neq. intros E. apply Hn. rewrite E, map_map. apply in_map_iff. exists (r, v). auto. }
    unfold apply_field at 1. cbn [lookup]. rewrite D. cbn [bind]. rewrite (IH N' I). destruct (apply_field ws [(fr_tag r, e)] (r, v)); reflexivity.
Qed.

Lemma given_apply m r j e : given_as m r j -> exists v, In (r, v) (em_fields m) /\ attribute (fr_ty r) j v /\
  match apply_field (em_set m) [(fr_tag r, e)] (r, v) with
  | Ok (r', v') => exists m', apply_policy m [(fr_tag r, e)] = Ok m' /\ In (r', v') (em_fields m')
  | Err => apply_policy m [(fr_tag r, e)] = Err
  | Panic => apply_policy m [(fr_tag r, e)] = Panic
  end.
Proof.
  intros G. pose proof (given_tags _ _ _ G) as N. destruct G as (_ & v & I & A). exists v. split; [exact I|]. split; [exact A|]. unfold apply_policy. rewrite (one_attribute _ r v e _ N I).
  destruct (apply_field (em_set m) [(fr_tag r, e)] (r, v)) as [[r' v']| |]; cbn [bind]; try reflexivity. eexists. split; [reflexivity|]. cbn [em_fields].
  apply in_map_iff. exists (r, v). cbn [fst]. now rewrite String.eqb_refl.
Qed.

Lemma field_only ws r v o x : apply_field ws [(fr_tag r, [(op_name o, x)])] (r, v) =
  ('(v1, _) <- apply_op o v (mem (fr_name r) ws) x (match o, x with OEssential, VBool b => b | _, _ => false end) ;;
   v'' <- assign (fr_ty r) (scope_fix (fr_name r) v1) ;; Ok (r, v'')).
Proof.
  unfold apply_field. cbn [lookup]. rewrite String.eqb_refl, only_op. destruct (apply_op _ _ _ _ _) as [[]| |]; reflexivity.
Qed.

(** The operand of a simple attribute as an operand. *)
Lemma texts_any l : map any_of (map JStr l) = map VStr l.
Proof. rewrite map_map. reflexivity. Qed.
Lemma cast_texts s l : map_res (cast_elem s TStr) (map VStr l) = Ok (map VStr l).
Proof. induction l; cbn [map map_res]; [reflexivity|]. cbn [cast_elem bind]. rewrite IHl. reflexivity. Qed.

Lemma assigned t j v j0 : simple_type t -> of_kind t j -> attribute t j0 v ->
  exists w, slice_cast (any_of j) (slicify v) = Ok w /\ any_of j <> VNil /\ attribute t j w /\ (forall n, scope_fix n w = w \/ t = TSlice TStr) /\ assign t w = Ok w.
Proof.
  intros S K A. destruct S as [-> | [-> | ->]].
  - destruct K as (s & ->). exists (VStr s). repeat split; try discriminate; [left; eauto|]. intros n. left. unfold scope_fix. destruct (String.eqb n "Scope"); reflexivity.
  - destruct K as (b & ->). exists (VBool b). repeat split; try discriminate; [left; eauto|]. intros n. left. unfold scope_fix. destruct (String.eqb n "Scope"); reflexivity.
  - destruct K as (l & ->). exists (VSlice TStr false (map VStr l)). cbn [any_of]. rewrite texts_any. split; [|repeat split; try discriminate; auto].
    + assert (T : exists n vs, v = VSlice TStr n vs) by (destruct A as [(xs & vs & _ & -> & _) | (_ & ->)]; eauto). destruct T as (n & vs & ->). cbn [slice_cast slicify typeof]. rewrite cast_texts. reflexivity.
    + left. exists (map JStr l), (map VStr l). repeat split; auto. clear. induction l; cbn [map]; constructor; auto. left. eauto.
Qed.

(** No attribute but scope is called "Scope", and scope is a text. *)
Lemma scope_text m r j : given_as m r j -> fr_name r = "Scope" -> fr_ty r = TStr.
Proof.
  intros (H & v & I & _) E. assert (J : In r (map fst (em_fields m))) by (apply in_map_iff; exists (r, v); auto). remember (map fst (em_fields m)) as sch eqn:Es. clear Es.
  assert (B : forallb (fun sch => forallb (fun r => if String.eqb (fr_name r) "Scope" then gty_eqb (fr_ty r) TStr else true) sch) [op_schema; rp_schema; pr_schema; fe_schema] = true) by (vm_compute; reflexivity).
  rewrite forallb_forall in B. specialize (B _ H). rewrite forallb_forall in B. specialize (B _ J). rewrite E, String.eqb_refl in B. destruct (fr_ty r); try discriminate B; reflexivity.
Qed.
Lemma scope_kept m r j w : given_as m r j -> (forall n, scope_fix n w = w \/ fr_ty r = TSlice TStr) -> scope_fix (fr_name r) w = w.
Proof.
  intros G F. destruct (F (fr_name r)) as [E|E]; [exact E|]. unfold scope_fix. destruct (String.eqb_spec (fr_name r) "Scope") as [N|N]; [|reflexivity].
  rewrite (scope_text _ _ _ G N) in E. discriminate E.
Qed.

Theorem value_simple m r j0 j : given_as m r j0 -> simple_type (fr_ty r) -> of_kind (fr_ty r) j ->
  exists m' v', apply_policy m [(fr_tag r, [("value", any_of j)])] = Ok m' /\ In (r, v') (em_fields m') /\ attribute (fr_ty r) j v'.
Proof.
  intros G S K. destruct (given_apply _ _ _ [("value", any_of j)] G) as (v & I & A & H). destruct (assigned _ _ _ _ S K A) as (w & C & N & Aw & F & As).
  change [("value", any_of j)] with [(op_name OValue, any_of j)] in H at 1. rewrite field_only in H. cbn [apply_op] in H.
  replace (is_nil (any_of j)) with false in H by (destruct (any_of j); try reflexivity; contradiction). rewrite C in H. cbn [bind] in H. rewrite (scope_kept _ _ _ _ G F), As in H. cbn [bind] in H.
  destruct H as (m' & Hm & Im). eauto.
Qed.

Lemma absent_zero t v : attribute t JNull v -> v = VNil \/ is_zero v = Ok true.
Proof.
  destruct t; cbn [attribute]; intros H; try (inversion H; now left); right;
    repeat match goal with H : _ \/ _ |- _ => destruct H | H : exists _, _ |- _ => destruct H | H : _ /\ _ |- _ => destruct H end; subst; try discriminate; reflexivity.
Qed.

Lemma default_absent m r v x : attribute (fr_ty r) JNull v -> ~ is_set m r ->
  apply_op ODefault v (mem (fr_name r) (em_set m)) x false = (w <- slice_cast x (slicify v) ;; Ok (w, true)).
Proof.
  intros A N. assert (E : mem (fr_name r) (em_set m) = false) by (apply mem_nIn; exact N). rewrite E. cbn [apply_op negb].
  destruct (absent_zero _ _ A) as [-> | Z]; [reflexivity|]. destruct v; cbn [is_nil]; try reflexivity; rewrite Z; reflexivity.
Qed.
Theorem default_simple m r j : given_as m r JNull -> ~ is_set m r -> simple_type (fr_ty r) -> of_kind (fr_ty r) j ->
  exists m' v', apply_policy m [(fr_tag r, [("default", any_of j)])] = Ok m' /\ In (r, v') (em_fields m') /\ attribute (fr_ty r) j v'.
Proof.
  intros G N S K. destruct (given_apply _ _ _ [("default", any_of j)] G) as (v & I & A & H). destruct (assigned _ _ _ _ S K A) as (w & C & Nn & Aw & F & As).
  change [("default", any_of j)] with [(op_name ODefault, any_of j)] in H at 1. rewrite field_only in H. rewrite default_absent in H by assumption.
  rewrite C in H. cbn [bind] in H. rewrite (scope_kept _ _ _ _ G F), As in H. cbn [bind] in H. destruct H as (m' & Hm & Im). eauto.
Qed.

Lemma one_of_set m r v x : is_set m r -> apply_op OOneOf v (mem (fr_name r) (em_set m)) (any_of (JArr x)) false = if existsb (deep_eq v) (map any_of x) then Ok (v, true) else Err.
Proof. intros N. assert (E : mem (fr_name r) (em_set m) = true) by (apply mem_In; exact N). rewrite E. reflexivity. Qed.

Theorem one_of_simple m r j0 js : given_as m r j0 -> is_set m r -> fr_ty r = TStr \/ fr_ty r = TBool -> of_kind (fr_ty r) j0 ->
  (In j0 js -> exists m' v', apply_policy m [(fr_tag r, [("one_of", any_of (JArr js))])] = Ok m' /\ In (r, v') (em_fields m') /\ attribute (fr_ty r) j0 v') /\
  (~ In j0 js -> apply_policy m [(fr_tag r, [("one_of", any_of (JArr js))])] = Err).
Proof.
  intros G N S K. destruct (given_apply _ _ _ [("one_of", any_of (JArr js))] G) as (v & I & A & H).
  change [("one_of", any_of (JArr js))] with [(op_name OOneOf, any_of (JArr js))] in H at 1. rewrite field_only in H. rewrite one_of_set in H by assumption.
  assert (B : existsb (deep_eq v) (map any_of js) = true <-> In j0 js).
  { rewrite existsb_exists. destruct S as [S|S]; rewrite S in *; destruct K as (s & ->); destruct A as [(s' & [= <-] & ->) | (? & _)]; try discriminate; split.
    - intros (y & Iy & E). apply in_map_iff in Iy as (x & <- & Ix). destruct x; try discriminate E. cbn in E. apply String.eqb_eq in E. now subst.
    - intros Ij. exists (VStr s). split; [apply in_map_iff; eexists; split; [|exact Ij]; reflexivity|]. apply String.eqb_refl.
    - intros (y & Iy & E). apply in_map_iff in Iy as (x & <- & Ix). destruct x; try discriminate E. cbn in E. apply Bool.eqb_prop in E. now subst.
    - intros Ij. exists (VBool s). split; [apply in_map_iff; eexists; split; [|exact Ij]; reflexivity|]. apply Bool.eqb_reflx. }
  assert (As : assign (fr_ty r) (scope_fix (fr_name r) v) = Ok v).
  { destruct S as [S|S]; rewrite S in *; destruct K as (s & ->); destruct A as [(s' & [= <-] & ->) | (? & _)]; try discriminate; unfold scope_fix; destruct (String.eqb (fr_name r) "Scope"); reflexivity. }
  split; intros Ij.
  - apply B in Ij. rewrite Ij in H. cbn [bind] in H. rewrite As in H. cbn [bind] in H. destruct H as (m' & Hm & Im). eauto.
  - destruct (existsb (deep_eq v) (map any_of js)); [exfalso; apply Ij; now apply B|exact H].
Qed.

(** Numbers, objects and key sets. *)
Lemma other_operand t j n v : other_type t -> of_kind t j -> slice_cast (any_of j) v = Ok (any_of j) /\ any_of j <> VNil /\ assign t (scope_fix n (any_of j)) = Panic.
Proof.
  intros T K. destruct T as [-> | [-> | [-> | ->]]]; destruct K as (o & ->); cbn [any_of]; (split; [reflexivity|]); (split; [discriminate|]);
    unfold scope_fix; destruct (String.eqb n "Scope"); reflexivity.
Qed.
Theorem value_other m r j0 j : given_as m r j0 -> other_type (fr_ty r) -> of_kind (fr_ty r) j ->
  apply_policy m [(fr_tag r, [("value", any_of j)])] = Panic.
Proof.
  intros G S K. destruct (given_apply _ _ _ [("value", any_of j)] G) as (v & I & A & H). destruct (other_operand _ _ (fr_name r) (slicify v) S K) as (C & N & As).
  change [("value", any_of j)] with [(op_name OValue, any_of j)] in H at 1. rewrite field_only in H. cbn [apply_op] in H.
  replace (is_nil (any_of j)) with false in H by (destruct (any_of j); try reflexivity; contradiction). rewrite C in H. cbn [bind] in H. rewrite As in H. exact H.
Qed.
Theorem default_other m r j : given_as m r JNull -> ~ is_set m r -> other_type (fr_ty r) -> of_kind (fr_ty r) j ->
  apply_policy m [(fr_tag r, [("default", any_of j)])] = Panic.
Proof.
  intros G N S K. destruct (given_apply _ _ _ [("default", any_of j)] G) as (v & I & A & H). destruct (other_operand _ _ (fr_name r) (slicify v) S K) as (C & _ & As).
  change [("default", any_of j)] with [(op_name ODefault, any_of j)] in H at 1. rewrite field_only in H. rewrite default_absent in H by assumption.
  rewrite C in H. cbn [bind] in H. rewrite As in H. exact H.
Qed.
Lemma other_unequal t j0 v js : other_type t -> of_kind t j0 -> attribute t j0 v -> existsb (deep_eq v) (map any_of js) = false.
Proof.
  intros T K A. destruct (existsb (deep_eq v) (map any_of js)) eqn:E; [|reflexivity]. exfalso. apply existsb_exists in E as (y & I & E). apply in_map_iff in I as (x & <- & _).
  destruct T as [-> | [-> | [-> | ->]]]; destruct K as (o & ->); cbn [attribute] in A;
    repeat match goal with H : _ \/ _ |- _ => destruct H | H : exists _, _ |- _ => destruct H | H : _ /\ _ |- _ => destruct H end; try discriminate; subst; destruct x; cbn in E; discriminate E.
Qed.
Theorem one_of_other m r j0 js : given_as m r j0 -> is_set m r -> other_type (fr_ty r) -> of_kind (fr_ty r) j0 ->
  apply_policy m [(fr_tag r, [("one_of", any_of (JArr js))])] = Err.
Proof.
  intros G N S K. destruct (given_apply _ _ _ [("one_of", any_of (JArr js))] G) as (v & I & A & H).
  change [("one_of", any_of (JArr js))] with [(op_name OOneOf, any_of (JArr js))] in H at 1. rewrite field_only in H. rewrite one_of_set in H by assumption.
  rewrite (other_unequal _ _ _ js S K A) in H. exact H.
Qed.
