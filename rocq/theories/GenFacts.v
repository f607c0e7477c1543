(** Proofs about the generator of the metadata types. *)
From Coq Require Import Permutation Lia.
From Verif Require Import Base BaseFacts Gen SpecGen.
Local Open Scope nat_scope.
Local Open Scope string_scope.

Lemma common_text e : common_syntax e -> field_type e = go_text e.
Proof. induction e as [| |e IH|o e IH|k IHk v IHv|]; cbn [field_type go_text common_syntax]; auto.
  - intros H. now rewrite IH.
  - intros [-> H]. now rewrite IH.
  - intros [H1 H2]. now rewrite IHk, IHv.
  - intros [].
Qed.
Lemma common_ptr_text e : common_syntax e -> field_ptr_type e = go_text (companion e).
Proof.
  destruct e as [| |e|o e|k v|]; cbn [field_ptr_type go_text common_syntax companion]; auto.
  - intros H. now rewrite common_text.
  - intros [-> H]. now rewrite common_text.
  - intros [H1 H2]. now rewrite !common_text.
  - intros [].
Qed.

(** ** The loops *)
Definition add1 skip st (x : string * (texpr * option string)) := add_name skip (fst (snd x)) (snd (snd x)) st (fst x).
Lemma add_fields_flat skip : forall fs st, fold_left (add_field skip) fs st = fold_left (add1 skip) (fields_of fs) st.
Proof.
  induction fs as [|f fs IH]; intros st; [reflexivity|]. cbn [fold_left fields_of flat_map]. rewrite fold_left_app. rewrite IH. fold (fields_of fs). f_equal.
  unfold add_field. generalize (fd_names f) st. induction l as [|n l IHl]; intros st0; [reflexivity|]. cbn [fold_left map]. apply IHl.
Qed.
Definition first_in (l : list (string * (texpr * option string))) n x := exists pre post, l = (pre ++ (n, x) :: post)%list /\ ~ In n (map fst pre).
Lemma first_cons n0 x0 l n x : first_in ((n0, x0) :: l) n x <-> (n = n0 /\ x = x0) \/ (n <> n0 /\ first_in l n x).
Proof.
  split.
  - intros ([|y pre] & post & E & N); cbn [app] in E.
    + injection E as <- <- <-. auto.
    + injection E as <- E. right. cbn in N. split; [intros ->; apply N; now left|]. exists pre, post. split; [exact E|]. intros H. apply N. now right.
  - intros [[-> ->]|[N (pre & post & -> & H)]].
    + exists [], l. split; [reflexivity|intros []].
    + exists ((n0, x0) :: pre), post. split; [reflexivity|]. cbn. intros [->|I]; [now apply N|now apply H].
Qed.
Definition sel {A} (b : bool) (p : A * A) : A := if b then fst p else snd p.
Definition ty (b : bool) (e : texpr) : string := if b then field_type e else field_ptr_type e.

Record inv (st : list string * (list row * list row)) : Prop := {
  inv_names : map rw_name (fst (snd st)) = rev (fst st);
  inv_once : NoDup (fst st);
  inv_lines : same_lines (fst (snd st)) (snd (snd st)) }.
Lemma inv0 : inv ([], ([], [])).
Proof. constructor; [reflexivity|constructor|reflexivity]. Qed.
Lemma inv_add skip st x : inv st -> inv (add1 skip st x).
Proof.
  intros [N O L]. destruct st as [seen [rows ptrs]], x as [n [e tag]]. unfold add1, add_name. cbn [fst snd] in *.
  destruct (skip n); [constructor; auto|]. destruct (mem n seen) eqn:M; [constructor; auto|].
  constructor; cbn [fst snd].
  - rewrite map_app, N. cbn. reflexivity.
  - constructor; [|exact O]. intros I. apply mem_In in I. congruence.
  - unfold same_lines in *. rewrite !map_app, L. reflexivity.
Qed.
Lemma inv_fold skip : forall l st, inv st -> inv (fold_left (add1 skip) l st).
Proof. induction l as [|x l IH]; intros st I; [exact I|]. cbn [fold_left]. apply IH, inv_add, I. Qed.

Lemma fold_in b skip : forall l st n t tag,
  In (Row n t tag) (sel b (snd (fold_left (add1 skip) l st))) <->
  In (Row n t tag) (sel b (snd st)) \/ (skip n = false /\ ~ In n (fst st) /\ exists e, t = ty b e /\ first_in l n (e, tag)).
Proof.
  induction l as [|[n0 [e0 tag0]] l IH]; intros st n t tag.
  { cbn [fold_left]. split; [auto|]. intros [H|(_ & _ & e & _ & (pre & post & E & _))]; [exact H|]. destruct pre; discriminate. }
  cbn [fold_left]. rewrite IH. destruct st as [seen [rows ptrs]]. unfold add1, add_name at 1 2. cbn [fst snd].
  assert (X : forall P : Prop, (P -> n <> n0) ->
     ((P /\ exists e, t = ty b e /\ first_in l n (e, tag)) <-> (P /\ exists e, t = ty b e /\ first_in ((n0, (e0, tag0)) :: l) n (e, tag)))).
  { intros P HP. split; intros (p & e & E & F); (split; [exact p|]); exists e; (split; [exact E|]).
    - apply first_cons. right. auto.
    - apply first_cons in F. destruct F as [[-> _]|[_ F]]; [destruct (HP p eq_refl)|exact F]. }
  destruct (skip n0) eqn:SK.
  { cbn [fst snd]. specialize (X (skip n = false /\ ~ In n seen)). rewrite <- !and_assoc in *. rewrite X; [reflexivity|]. intros [S _] ->. congruence. }
  destruct (mem n0 seen) eqn:M.
  { cbn [fst snd]. specialize (X (skip n = false /\ ~ In n seen)). rewrite <- !and_assoc in *. rewrite X; [reflexivity|]. intros [_ S] ->. apply S. now apply mem_In. }
  assert (NS : ~ In n0 seen) by (intros I; apply mem_In in I; congruence).
  assert (E1 : In (Row n t tag) (sel b ((rows ++ [Row n0 (field_type e0) tag0])%list, (ptrs ++ [Row n0 (field_ptr_type e0) tag0])%list)) <->
     In (Row n t tag) (sel b (rows, ptrs)) \/ (n = n0 /\ t = ty b e0 /\ tag = tag0)).
  { destruct b; cbn [sel fst snd ty]; rewrite in_app_iff; cbn [In]; (split; [intros [H|[[= <- <- <-]|[]]]; auto|intros [H|(-> & -> & ->)]; auto]). }
  cbn [fst snd]. rewrite E1. cbn [In]. split.
  - intros [[H|(-> & -> & ->)]|(S & N & e & E & F)]; [auto| |].
    + right. split; [exact SK|]. split; [exact NS|]. exists e0. split; [reflexivity|]. apply first_cons. auto.
    + right. split; [exact S|]. split; [tauto|]. exists e. split; [exact E|]. apply first_cons. right. split; [|exact F]. intros ->. apply N. now left.
  - intros [H|(S & N & e & E & F)]; [auto|]. apply first_cons in F. destruct F as [[-> [= -> ->]]|[D F]]; [auto|].
    right. split; [exact S|]. split; [|eauto]. intros [<-|I]; [now apply D|now apply N].
Qed.
Lemma fold_seen skip : forall l st, inv st -> forall n, In n (fst (fold_left (add1 skip) l st)) <-> In n (fst st) \/ (skip n = false /\ In n (map fst l)).
Proof.
  induction l as [|[n0 [e0 tag0]] l IH]; intros st I n; [cbn; tauto|]. cbn [fold_left]. rewrite IH by now apply inv_add.
  destruct st as [seen [rows ptrs]]. unfold add1, add_name. cbn [fst snd map In]. destruct (skip n0) eqn:SK; [|destruct (mem n0 seen) eqn:M]; cbn [fst In].
  - split; [tauto|]. intros [H|[S [<-|H]]]; auto. congruence.
  - split; [tauto|]. intros [H|[S [<-|H]]]; auto. left. now apply mem_In.
  - split; [intros [[<-|H]|[S H]]; auto|]. intros [H|[S [<-|H]]]; auto.
Qed.

Lemma has_part_iff x : forall s, has_part x s = true <-> exists a b, s = a ++ x ++ b.
Proof.
  assert (PX : forall s, String.prefix x s = true <-> exists b, s = x ++ b).
  { induction x as [|c x IH]; intros s.
    - split; [intros _; exists s; reflexivity|intros _; destruct s; reflexivity].
    - destruct s as [|c' s]; cbn [String.prefix]; [split; [discriminate|intros [b H]; discriminate]|].
      destruct (ascii_dec c c') as [->|N].
      + rewrite IH. split; intros [b H]; exists b; [now rewrite H|]. cbn in H. now injection H.
      + split; [discriminate|]. intros [b H]. cbn in H. injection H as H _. congruence. }
  induction s as [|c s IH]; cbn [has_part]; rewrite Bool.orb_true_iff, PX.
  - split.
    + intros [[b H]|H]; [exists "", b; exact H|discriminate].
    + intros ([|c a] & b & H); [left; exists b; exact H|discriminate].
  - rewrite IH. split.
    + intros [[b H]|(a & b & ->)]; [exists "", b; exact H|exists (String c a), b; reflexivity].
    + intros ([|c' a] & b & H); [left; exists b; exact H|]. cbn in H. injection H as -> H. right. exists a, b. exact H.
Qed.
Lemma left_out_iff name n : (String.eqb name "FederationEntityMetadata" && has_part "JWKS" n)%bool = false <-> ~ left_out name n.
Proof.
  unfold left_out. rewrite <- has_part_iff. rewrite <- (String.eqb_eq name). rewrite Bool.andb_false_iff.
  destruct (String.eqb name "FederationEntityMetadata"), (has_part "JWKS" n); intuition discriminate.
Qed.

Lemma combined_in b name own common n t tag :
  In (Row n t tag) (sel b (combined name own common)) <->
  exists e, t = ty b e /\ (declares own n (e, tag) \/ ~ declared own n /\ ~ left_out name n /\ declares common n (e, tag)).
Proof.
  unfold combined. cbn zeta. rewrite !add_fields_flat, fold_in, fold_in. cbn [fst snd].
  rewrite (fold_seen (fun _ => false) (fields_of own) _ inv0). cbn [fst In]. rewrite left_out_iff. fold (declared own n).
  split.
  - intros [[H|(_ & _ & e & E & F)]|(L & N & e & E & F)].
    + destruct b; destruct H.
    + exists e. split; [exact E|]. left. exact F.
    + exists e. split; [exact E|]. right. split; [|split; [exact L|exact F]]. intros D. apply N. right. auto.
  - intros (e & E & [F|(N & L & F)]).
    + left. right. repeat split; auto. exists e. auto.
    + right. split; [exact L|]. split; [intros [[]|[_ D]]; now apply N|]. exists e. auto.
Qed.
Lemma combined_inv name own common : NoDup (map rw_name (fst (combined name own common))) /\ same_lines (fst (combined name own common)) (snd (combined name own common)).
Proof.
  unfold combined. cbn zeta. rewrite !add_fields_flat.
  match goal with |- context [fold_left (add1 ?s) ?l ?i] => pose proof (inv_fold s l i (inv_fold _ _ _ inv0)) as [N O L] end.
  split; [|exact L]. rewrite N. now apply NoDup_rev.
Qed.

Lemma declares_common fs n e tag : all_common fs -> declares fs n (e, tag) -> common_syntax e.
Proof.
  intros A (pre & post & E & _). assert (I : In (n, (e, tag)) (fields_of fs)) by (rewrite E; apply in_app_iff; right; now left).
  apply in_flat_map in I. destruct I as (f & If & I). apply in_map_iff in I. destruct I as (x & [= <- <- <-] & _). now apply A.
Qed.

Theorem gen_fields name own common n t tag : all_common own -> all_common common ->
  In (Row n t tag) (fst (combined name own common)) <->
  exists e, t = go_text e /\ (declares own n (e, tag) \/ ~ declared own n /\ ~ left_out name n /\ declares common n (e, tag)).
Proof.
  intros A B. pose proof (combined_in true name own common n t tag) as H. cbn [sel ty] in H. rewrite H.
  split; intros (e & -> & D); exists e; (split; [|exact D]).
  - apply common_text. destruct D as [D|(_ & _ & D)]; [exact (declares_common own n e tag A D)|exact (declares_common common n e tag B D)].
  - symmetry. apply common_text. destruct D as [D|(_ & _ & D)]; [exact (declares_common own n e tag A D)|exact (declares_common common n e tag B D)].
Qed.
Theorem gen_companion name own common n t tag : all_common own -> all_common common ->
  In (Row n t tag) (snd (combined name own common)) <->
  exists e, t = go_text (companion e) /\ (declares own n (e, tag) \/ ~ declared own n /\ ~ left_out name n /\ declares common n (e, tag)).
Proof.
  intros A B. pose proof (combined_in false name own common n t tag) as H. cbn [sel ty] in H. rewrite H.
  split; intros (e & -> & D); exists e; (split; [|exact D]).
  - apply common_ptr_text. destruct D as [D|(_ & _ & D)]; [exact (declares_common own n e tag A D)|exact (declares_common common n e tag B D)].
  - symmetry. apply common_ptr_text. destruct D as [D|(_ & _ & D)]; [exact (declares_common own n e tag A D)|exact (declares_common common n e tag B D)].
Qed.
Theorem gen_once name own common : NoDup (map rw_name (fst (combined name own common))) /\ same_lines (fst (combined name own common)) (snd (combined name own common)).
Proof. apply combined_inv. Qed.

Lemma star_self e : EStar e <> e.
Proof. induction e; intros H; try discriminate. now injection H. Qed.
Theorem gen_read kinds e : common_syntax e ->
  from_pointer kinds (companion e) e <> Panic <->
  (forall n, e = EName n -> kinds n <> KPointer) /\ (forall p n, e = EQual p n -> kinds (p ++ "." ++ n) <> KPlain).
Proof.
  intros C. destruct e as [m|q m|e|[|] e|k v|]; cbn [companion]; unfold from_pointer; cbn [kind_of].
  - destruct (kinds m) eqn:K.
    + destruct (texpr_dec (EStar (EName m)) (EName m)); [discriminate|]. split; [congruence|]. intros [H _]. now destruct (H m eq_refl).
    + destruct (texpr_dec (EName m) (EName m)); [|contradiction]. split; [|discriminate]. intros _. split; [intros n [= <-]; congruence|discriminate].
    + destruct (texpr_dec (EName m) (EName m)); [|contradiction]. split; [|discriminate]. intros _. split; [intros n [= <-]; congruence|discriminate].
  - destruct (texpr_dec (EQual q m) (EQual q m)); [|contradiction]. destruct (kinds (q ++ "." ++ m)) eqn:K.
    + split; [|discriminate]. intros _. split; [discriminate|]. intros p n [= <- <-]. congruence.
    + split; [|discriminate]. intros _. split; [discriminate|]. intros p n [= <- <-]. congruence.
    + split; [congruence|]. intros [_ H]. now destruct (H q m eq_refl).
  - destruct (texpr_dec (EStar e) (EStar e)); [|contradiction]. split; [|discriminate]. split; discriminate.
  - destruct C as [C _]. discriminate C.
  - destruct (texpr_dec (EArray None e) (EArray None e)); [|contradiction]. split; [|discriminate]. split; discriminate.
  - destruct (texpr_dec (EMap k v) (EMap k v)); [|contradiction]. split; [|discriminate]. split; discriminate.
  - destruct C.
Qed.

(** ** The file *)
Lemma put_lookup k v : forall m k', lookup k' (put k v m) = if String.eqb k' k then Some v else lookup k' m.
Proof.
  induction m as [|[a b] m IH]; intros k'; cbn [put lookup].
  - reflexivity.
  - destruct (String.eqb_spec k a) as [->|N]; cbn [lookup].
    + destruct (String.eqb_spec k' a); reflexivity.
    + destruct (String.eqb_spec k' a) as [->|N']; [|apply IH]. destruct (String.eqb_spec a k) as [->|]; [contradiction|reflexivity].
Qed.
Lemma put_keys k v : forall m, NoDup (map fst m) -> NoDup (map fst (put k v m)).
Proof.
  induction m as [|[a b] m IH]; intros D; cbn [put map fst]; [repeat constructor; intros []|].
  inversion D as [|? ? NI D']; subst. destruct (String.eqb_spec k a) as [->|N]; cbn [map fst]; [constructor; auto|].
  constructor; [|auto]. intros I. apply NI. clear - I N. induction m as [|[x y] m IH]; cbn in *; [destruct I as [->|[]]; contradiction|].
  destruct (String.eqb_spec k x) as [->|]; cbn in I; [exact I|]. destruct I; auto.
Qed.

Definition seen_last (l : list tdecl) (n : string) (fs : list fdecl) : Prop :=
  exists pre post, l = (pre ++ TDecl n (Some fs) :: post)%list /\ forall fs', ~ In (TDecl n (Some fs')) post.
Lemma seen_last_snoc l n0 o n fs : seen_last (l ++ [TDecl n0 o]) n fs <->
  (n = n0 /\ o = Some fs) \/ (~ (n = n0 /\ exists fs', o = Some fs') /\ seen_last l n fs).
Proof.
  split.
  - intros (pre & post & E & N). destruct (exists_last (l := TDecl n (Some fs) :: post)) as (q & z & Q); [discriminate|].
    rewrite Q in E. rewrite app_assoc in E. apply app_inj_tail in E. destruct E as [E <-].
    destruct q as [|y q]; cbn [app] in Q; [injection Q as -> <- _; auto|injection Q as <- Q2].
    right. split.
    + intros [-> [fs' ->]]. apply (N fs'). rewrite Q2. apply in_app_iff. right. now left.
    + exists pre, q. split; [exact E|]. intros fs' I. apply (N fs'). rewrite Q2. apply in_app_iff. now left.
  - intros [[-> ->]|[X (pre & post & -> & N)]].
    + exists l, []. split; [reflexivity|intros fs' []].
    + exists pre, (post ++ [TDecl n0 o])%list. split; [now rewrite <- app_assoc|]. intros fs' I. apply in_app_iff in I. destruct I as [I|[[= -> ->]|[]]]; [now apply (N fs')|].
      apply X. eauto.
Qed.
Lemma read_spec l : let st := fold_left read_decl l (None, []) in
  (forall fs, fst st = Some fs <-> seen_last l "commonMetadata" fs) /\
  (forall n fs, lookup n (snd st) = Some fs <-> n <> "commonMetadata" /\ seen_last l n fs) /\ NoDup (map fst (snd st)).
Proof.
  cbv zeta. induction l as [|[n0 o] l (IH1 & IH2 & IH3)] using rev_ind.
  { cbn. split; [|split; [|constructor]].
    - intros fs. split; [discriminate|]. intros (pre & post & E & _). destruct pre; discriminate.
    - intros n fs. split; [discriminate|]. intros (_ & pre & post & E & _). destruct pre; discriminate. }
  rewrite fold_left_app. cbn [fold_left]. remember (fold_left read_decl l (None, [])) as st eqn:Est. clear Est.
  unfold read_decl. cbn [td_struct td_name]. destruct o as [fs0|].
  - destruct (String.eqb_spec n0 "commonMetadata") as [->|N]; cbn [fst snd]; (split; [|split]).
    + intros fs. rewrite seen_last_snoc. split; [intros [= ->]; auto|]. intros [[_ [= ->]]|[X _]]; [reflexivity|]. destruct X. eauto.
    + intros n fs. rewrite IH2, seen_last_snoc. split.
      * intros [D S]. split; [exact D|]. right. split; [intros [E _]; contradiction|exact S].
      * intros [D [[E _]|[_ S]]]; [contradiction|auto].
    + exact IH3.
    + intros fs. rewrite IH1, seen_last_snoc. split.
      * intros S. right. split; [|exact S]. intros [E _]. now apply N.
      * intros [[E _]|[_ S]]; [now destruct N|exact S].
    + intros n fs. rewrite put_lookup, seen_last_snoc. destruct (String.eqb_spec n n0) as [->|D].
      * split; [intros [= ->]; auto|]. intros [_ [[_ [= ->]]|[X _]]]; [reflexivity|]. destruct X. eauto.
      * rewrite IH2. split.
        -- intros [A S]. split; [exact A|]. right. split; [intros [E _]; contradiction|exact S].
        -- intros [A [[E _]|[_ S]]]; [contradiction|auto].
    + now apply put_keys.
  - split; [|split; [|exact IH3]].
    + intros fs. rewrite IH1, seen_last_snoc. split.
      * intros S. right. split; [|exact S]. intros [_ [f E]]. discriminate.
      * intros [[_ E]|[_ S]]; [discriminate|exact S].
    + intros n fs. rewrite IH2, seen_last_snoc. split.
      * intros [A S]. split; [exact A|]. right. split; [|exact S]. intros [_ [f E]]. discriminate.
      * intros [A [[_ E]|[_ S]]]; [discriminate|auto].
Qed.

Lemma suffix_inj a b c : a ++ c = b ++ c -> b = a.
Proof.
  intros E. assert (L : forall x y, String.length (x ++ y) = String.length x + String.length y) by (induction x; intros; cbn; auto).
  revert b E. induction a as [|k a IH]; intros [|k' b] E; cbn in E; auto.
  - apply (f_equal String.length) in E. cbn in E. rewrite L in E. lia.
  - apply (f_equal String.length) in E. cbn in E. rewrite L in E. lia.
  - injection E as -> E. now rewrite (IH _ E).
Qed.
Theorem gen_written order src f : some_order order -> generate order src = Ok f ->
  exists c, last_struct src "commonMetadata" c /\
  (forall g, In g (gf_types f) <-> exists n fs, n <> "commonMetadata" /\ last_struct src n fs /\
     gt_name g = capital n /\ gt_ptr_name g = n ++ "WithPtrs" /\ (gt_rows g, gt_ptrs g) = combined (capital n) fs c /\
     gt_entity g = match lookup (capital n) entity_types with Some t => t | None => "" end) /\
  NoDup (map gt_ptr_name (gf_types f)).
Proof.
  intros SO G. unfold generate in G. pose proof (read_spec (gs_types src)) as R. cbv zeta in R.
  destruct (fold_left read_decl (gs_types src) (None, [])) as [common others]. cbn [fst snd] in R. destruct R as (R1 & R2 & R3).
  destruct common as [c|]; [|discriminate]. injection G as <-. cbn [gf_types]. exists c. split; [now apply R1|].
  specialize (SO others). split.
  - intros g. rewrite in_map_iff. split.
    + intros ([n fs] & <- & I). apply (Permutation_in _ (Permutation_sym SO)) in I. apply In_lookup in I; [|exact R3]. apply R2 in I. destruct I as [N S].
      exists n, fs. split; [exact N|]. split; [exact S|]. unfold gen_type. cbn [fst snd]. destruct (combined (capital n) fs c). repeat split.
    + intros (n & fs & N & S & E1 & E2 & E3 & E4). exists (n, fs). split.
      * unfold gen_type. cbn [fst snd]. rewrite <- E3, <- E1, <- E2. rewrite <- E1 in E4. rewrite <- E4. now destruct g.
      * apply (Permutation_in _ SO). apply lookup_In. apply R2. auto.
  - rewrite map_map. rewrite (map_ext _ (fun nd => fst nd ++ "WithPtrs")).
    2:{ intros [n fs]. unfold gen_type. cbn [fst snd]. now destruct (combined (capital n) fs c). }
    assert (D : NoDup (map fst (order others))) by (eapply Permutation_NoDup; [apply Permutation_map, SO|exact R3]).
    clear - D. induction (order others) as [|[n fs] l IH]; cbn [map fst]; [constructor|]. inversion D as [|? ? NI D']; subst. constructor; [|auto].
    intros I. apply in_map_iff in I. destruct I as ([n' fs'] & E & I). cbn [fst] in E. apply NI. apply in_map_iff. exists (n', fs'). split; [|exact I]. cbn.
    now apply suffix_inj in E.
Qed.

Theorem gen_again o1 o2 src f1 f2 : some_order o1 -> some_order o2 -> generate o1 src = Ok f1 -> generate o2 src = Ok f2 ->
  gf_package f1 = gf_package f2 /\ Permutation (gf_types f1) (gf_types f2).
Proof.
  intros S1 S2 G1 G2. unfold generate in *. destruct (fold_left read_decl (gs_types src) (None, [])) as [[c|] others]; [|discriminate].
  injection G1 as <-. injection G2 as <-. split; [reflexivity|]. cbn [gf_types]. apply Permutation_map.
  eapply Permutation_trans; [apply Permutation_sym, S1|apply S2].
Qed.
Theorem gen_package order src f : generate order src = Ok f -> gs_package src <> "pkg" -> gf_package f <> gs_package src.
Proof.
  intros G N E. apply N. rewrite <- E. unfold generate in G. destruct (fold_left read_decl (gs_types src) (None, [])) as [[c|] others]; [|discriminate].
  now injection G as <-.
Qed.
Lemma declares_in fs n x : declares fs n x -> In (n, x) (fields_of fs).
Proof. intros (pre & post & -> & _). apply in_app_iff. right. now left. Qed.
Theorem gen_tags name own common :
  (forall n n' e e' tag, In (n, (e, Some tag)) (fields_of own ++ fields_of common) -> In (n', (e', Some tag)) (fields_of own ++ fields_of common) -> n = n') ->
  forall r r', In r (fst (combined name own common)) -> In r' (fst (combined name own common)) -> rw_tag r <> None -> rw_tag r = rw_tag r' -> r = r'.
Proof.
  intros H [n t tag] [n' t' tag'] I I' NN E. cbn [rw_tag] in *. subst tag'. destruct tag as [tag|]; [|contradiction].
  assert (X : forall m u, In (Row m u (Some tag)) (fst (combined name own common)) -> exists e, In (m, (e, Some tag)) (fields_of own ++ fields_of common)).
  { intros m u J. apply (combined_in true) in J. destruct J as (e & _ & D). exists e. apply in_app_iff. destruct D as [D|(_ & _ & D)]; [left|right]; now apply declares_in. }
  destruct (X _ _ I) as [e J], (X _ _ I') as [e' J']. pose proof (H _ _ _ _ _ J J') as <-.
  apply (combined_in true) in I. apply (combined_in true) in I'. cbn [ty] in *.
  destruct I as (a & -> & D), I' as (a' & -> & D').
  assert (U : forall fs x y, declares fs n x -> declares fs n y -> x = y).
  { intros fs x y (p1 & q1 & E1 & N1) (p2 & q2 & E2 & N2). rewrite E1 in E2. clear - E2 N1 N2. revert p2 E2 N2.
    induction p1 as [|z p1 IH]; intros [|z' p2] E N2; cbn [app] in E.
    - now injection E.
    - injection E as <- _. destruct N2. now left.
    - injection E as -> _. destruct N1. now left.
    - injection E as -> E. apply (IH (fun i => N1 (or_intror i)) p2 E (fun i => N2 (or_intror i))). }
  assert (DD : forall fs x, declares fs n x -> declared fs n) by (intros fs x (p & q & E1 & _); unfold declared; rewrite E1, map_app; apply in_app_iff; right; now left).
  destruct D as [D|(A & _ & D)], D' as [D'|(A' & _ & D')].
  - now injection (U _ _ _ D D') as ->.
  - destruct A'. eauto.
  - destruct A. eauto.
  - now injection (U _ _ _ D D') as ->.
Qed.

Fixpoint index_of (c : ascii) (l : list ascii) : option nat :=
  match l with [] => None | d :: l' => if Ascii.eqb c d then Some 0 else option_map S (index_of c l') end.
Lemma index_of_nth c l : forall i, index_of c l = Some i -> nth_error l i = Some c.
Proof.
  induction l as [|d l IH]; intros i H; [discriminate|]. cbn [index_of] in H. destruct (Ascii.eqb_spec c d) as [->|N].
  - injection H as <-. reflexivity.
  - destruct (index_of c l) as [j|]; [|discriminate]. injection H as <-. now apply IH.
Qed.
Lemma index_of_none c l : index_of c l = None -> ~ In c l.
Proof.
  induction l as [|d l IH]; intros H; [intros []|]. cbn [index_of] in H. destruct (Ascii.eqb_spec c d) as [->|N]; [discriminate|].
  destruct (index_of c l) as [j|]; [discriminate|]. intros [->|I]; [contradiction|]. now apply IH.
Qed.
Theorem gen_refuses order src :
  (generate order src = Err <-> forall fs, ~ last_struct src "commonMetadata" fs) /\ generate order src <> Panic.
Proof.
  unfold generate. pose proof (read_spec (gs_types src)) as R. cbv zeta in R.
  destruct (fold_left read_decl (gs_types src) (None, [])) as [common others]. cbn [fst snd] in R. destruct R as (R1 & _ & _).
  destruct common as [c|]; split; try discriminate.
  - split; [discriminate|]. intros H. destruct (H c). now apply R1.
  - split; [|reflexivity]. intros _ fs S. apply R1 in S. discriminate.
Qed.
Lemma upper_all : forallb (fun n => let c := ascii_of_nat n in
  let i := index_of c small_letters in
  match i with
  | Some i => match nth_error capital_letters i with Some C => Ascii.eqb (upper c) C | None => false end
  | None => Ascii.eqb (upper c) c
  end) (seq 0 256) = true.
Proof. vm_compute. reflexivity. Qed.
Theorem gen_exported n : n <> "" -> exported_as n (capital n).
Proof.
  destruct n as [|c s]; intros H; [contradiction|]. exists c, s. split; [reflexivity|]. cbn [capital].
  pose proof upper_all as U. rewrite forallb_forall in U. specialize (U (nat_of_ascii c)).
  rewrite ascii_nat_embedding in U. cbv zeta in U.
  assert (I : In (nat_of_ascii c) (seq 0 256)) by (apply in_seq; pose proof (nat_ascii_bounded c); lia). specialize (U I).
  destruct (index_of c small_letters) as [i|] eqn:E.
  - left. destruct (nth_error capital_letters i) as [C|] eqn:N; [|discriminate]. apply Ascii.eqb_eq in U. exists i, C.
    split; [now apply index_of_nth|]. split; [exact N|]. now rewrite U.
  - right. apply Ascii.eqb_eq in U. split; [now apply index_of_none|]. now rewrite U.
Qed.
