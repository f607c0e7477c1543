(** Decoding of structs: each field is decoded from the members with its name. *)
From Coq Require Import QArith Lia.
From Coq Require Qcanon.
From Verif Require Import Base BaseFacts GoVal Policy Schema Metadata Chain FloatTime SpecTime Json SpecJson JsonFacts TrustMark Leaf LeafFacts SpecDecode.
Local Open Scope nat_scope.
Local Open Scope string_scope.

Definition same_name (t : string) (kv : string * json) : bool := String.eqb (fold_name (fst kv)) (fold_name t).
Definition named (t : string) (o : list (string * json)) : list json := map snd (filter (same_name t) o).
Fixpoint dec_seq {V} (c : codec V) (v : V) (l : list json) : res V :=
  match l with [] => Ok v | j :: l' => v' <- c_dec c v j ;; dec_seq c v' l' end.

Lemma index_of_Some p l : forall i, index_of p l = Some i -> exists x, nth_error l i = Some x /\ p x = true.
Proof.
  induction l as [|y l IH]; intros i; cbn [index_of]; [discriminate|]. destruct (p y) eqn:P.
  - intros [= <-]. exists y. auto.
  - destruct (index_of p l) as [n|]; [|discriminate]. intros [= <-]. cbn [nth_error]. now apply IH.
Qed.
Lemma index_of_None p l : index_of p l = None -> forall x, In x l -> p x = false.
Proof.
  induction l as [|y l IH]; cbn [index_of]; intros H x []; destruct (p y) eqn:P; try discriminate; subst; auto;
    destruct (index_of p l); try discriminate; auto.
Qed.
Lemma field_of_Some ts k i : field_of ts k = Some i -> exists t, nth_error ts i = Some t /\ fold_name k = fold_name t.
Proof.
  unfold field_of. destruct (index_of (String.eqb k) ts) as [n|] eqn:E.
  - intros [= <-]. destruct (index_of_Some _ _ _ E) as (x & N & P). apply String.eqb_eq in P. subst. eauto.
  - intros H. destruct (index_of_Some _ _ _ H) as (x & N & P). apply String.eqb_eq in P. eauto.
Qed.
Lemma field_of_None ts k : field_of ts k = None -> forall t, In t ts -> fold_name k <> fold_name t.
Proof.
  unfold field_of. destruct (index_of (String.eqb k) ts) as [n|] eqn:E; [discriminate|]. intros H t Ht.
  apply (index_of_None _ _ H) in Ht. now apply String.eqb_neq.
Qed.

Lemma nth_set_nth {A} (l : list A) : forall i x n, nth_error (set_nth i x l) n =
  if Nat.eqb i n then (match nth_error l n with Some _ => Some x | None => None end) else nth_error l n.
Proof.
  induction l as [|y l IH]; intros i x n.
  - destruct i, n; cbn; try reflexivity. now destruct (Nat.eqb i n).
  - destruct i, n; cbn; try reflexivity. apply IH.
Qed.

Lemma nth_ext {A} (l : list A) : forall l', (forall n, nth_error l n = nth_error l' n) -> l = l'.
Proof.
  induction l as [|x l IH]; intros [|y l'] H; auto; try (now specialize (H 0)).
  pose proof (H 0) as E. cbn in E. injection E as ->. f_equal. apply IH. intros n. exact (H (S n)).
Qed.

(** The decoded value of each field. *)
Theorem dec_fields_exact {V} (fs : list (jfield V)) : distinct_names fs -> forall o vs vs', List.length vs = List.length fs ->
  (dec_fields fs o vs = Ok vs' <-> List.length vs' = List.length fs /\
   forall i f v, nth_error fs i = Some f -> nth_error vs i = Some v ->
     exists v', nth_error vs' i = Some v' /\ dec_seq (f_codec f) v (named (f_tag f) o) = Ok v').
Proof.
  intros D. induction o as [|[k j] o IH]; intros vs vs' L.
  - cbn [dec_fields]. split.
    + intros [= <-]. split; [exact L|]. intros i f v _ H. exists v. split; [exact H|reflexivity].
    + intros [L' H]. f_equal. apply nth_ext. intros i. destruct (nth_error vs i) as [v|] eqn:E.
      * assert (exists f, nth_error fs i = Some f) as [f F].
        { destruct (nth_error fs i) eqn:F; [eauto|]. apply nth_error_None in F. assert (i < List.length vs) by (apply nth_error_Some; congruence). lia. }
        destruct (H i f v F E) as (v' & N & S). cbn in S. injection S as ->. now symmetry.
      * symmetry. apply nth_error_None. apply nth_error_None in E. lia.
  - cbn [dec_fields]. destruct (field_of (tags fs) k) as [i|] eqn:FO.
    + destruct (field_of_Some _ _ _ FO) as (t & Nt & Ft). unfold tags in Nt. rewrite nth_error_map in Nt.
      destruct (nth_error fs i) as [f|] eqn:Ef; [|discriminate]. injection Nt as <-.
      assert (exists v, nth_error vs i = Some v) as [v Ev].
      { destruct (nth_error vs i) eqn:F; [eauto|]. apply nth_error_None in F. assert (i < List.length fs) by (apply nth_error_Some; congruence). lia. }
      rewrite Ev.
      assert (U : forall n g, nth_error fs n = Some g -> same_name (f_tag g) (k, j) = Nat.eqb i n).
      { intros n g G. unfold same_name. cbn [fst]. rewrite Ft. destruct (Nat.eqb_spec i n) as [<-|Ne].
        - rewrite G in Ef. injection Ef as ->. apply String.eqb_refl.
        - apply String.eqb_neq. intros E. apply Ne. unfold distinct_names, tags in D. rewrite map_map in D.
          eapply NoDup_nth_error with (l := map (fun x => fold_name (f_tag x)) fs); auto.
          + rewrite map_length. apply nth_error_Some. congruence.
          + rewrite !nth_error_map, Ef, G. cbn. now rewrite E. }
      destruct (c_dec (f_codec f) v j) as [w| |] eqn:C; cbn [bind].
      * rewrite IH by (rewrite set_nth_length; exact L). split; intros [L' H]; (split; [exact L'|]).
        -- intros n g u G Un. unfold named. cbn [filter]. rewrite (U n g G). destruct (Nat.eqb_spec i n) as [<-|Ne].
           ++ rewrite G in Ef. injection Ef as ->. rewrite Ev in Un. injection Un as <-. cbn [map snd dec_seq]. rewrite C. cbn [bind].
              apply H; [exact G|]. rewrite nth_set_nth, Nat.eqb_refl, Ev. reflexivity.
           ++ apply H; [exact G|]. rewrite nth_set_nth. destruct (Nat.eqb_spec i n); [contradiction|exact Un].
        -- intros n g u G Un. rewrite nth_set_nth in Un. destruct (Nat.eqb_spec i n) as [<-|Ne].
           ++ rewrite Ev in Un. injection Un as <-. rewrite G in Ef. injection Ef as ->.
              destruct (H i f v G Ev) as (v' & N & S). exists v'. split; [exact N|].
              unfold named in S. cbn [filter] in S. rewrite (U i f G), Nat.eqb_refl in S. cbn [map snd dec_seq] in S. rewrite C in S. exact S.
           ++ destruct (H n g u G Un) as (v' & N & S). exists v'. split; [exact N|].
              unfold named in S. cbn [filter] in S. rewrite (U n g G) in S. destruct (Nat.eqb_spec i n); [contradiction|exact S].
      * split; [discriminate|]. intros [L' H]. destruct (H i f v Ef Ev) as (v' & N & S).
        unfold named in S. cbn [filter] in S. rewrite (U i f Ef), Nat.eqb_refl in S. cbn [map snd dec_seq] in S. rewrite C in S. discriminate S.
      * split; [discriminate|]. intros [L' H]. destruct (H i f v Ef Ev) as (v' & N & S).
        unfold named in S. cbn [filter] in S. rewrite (U i f Ef), Nat.eqb_refl in S. cbn [map snd dec_seq] in S. rewrite C in S. discriminate S.
    + rewrite IH by exact L.
      assert (U : forall n g, nth_error fs n = Some g -> named (f_tag g) ((k, j) :: o) = named (f_tag g) o).
      { intros n g G. unfold named. cbn [filter]. unfold same_name at 1. cbn [fst].
        destruct (String.eqb_spec (fold_name k) (fold_name (f_tag g))) as [E|]; [|reflexivity].
        exfalso. apply (field_of_None _ _ FO) in E; auto. apply in_map. eapply nth_error_In. eauto. }
      split; intros [L' H]; (split; [exact L'|]); intros n g u G Un; destruct (H n g u G Un) as (v' & N & S); exists v';
        (split; [exact N|]); [rewrite (U n g G)|rewrite (U n g G) in S]; exact S.
Qed.

(** ** The codecs *)

Lemma last_cons {A} (l : list A) : forall x d, last (x :: l) d = last l x.
Proof.
  induction l as [|y l IH]; intros x d; [reflexivity|].
  change (last (x :: y :: l) d) with (last (y :: l) d). now rewrite !IH.
Qed.
Lemma dec_seq_text l : forall s s', dec_seq str_codec (GStr s) l = Ok s' <->
  Forall (fun x => x = JNull \/ exists t, x = JStr t) l /\ s' = GStr (last (texts l) s).
Proof.
  induction l as [|j l IH]; intros s s'; cbn [dec_seq texts flat_map last].
  - split; [intros [= <-]; auto|intros [_ ->]; reflexivity].
  - cbn [c_dec str_codec]. destruct j; cbn [dec_str bind]; try (split; [discriminate|intros [H _]; inversion H as [|? ? [E|[t E]] _]; discriminate E]).
    + rewrite IH. cbn [app]. split; intros [H ->]; (split; [|reflexivity]); [constructor; auto|now inversion H].
    + rewrite IH. fold (texts l). cbn [app]. rewrite last_cons. split; intros [H ->]; (split; [|reflexivity]); [constructor; eauto|now inversion H].
Qed.

Lemma last_map_cons {A B} (f : A -> B) x l d : last (map f (x :: l)) d = last (map f l) (f x).
Proof. apply last_cons. Qed.
Lemma dec_seq_time l : forall t s', dec_seq time_codec (GTime t) l = Ok s' <->
  Forall null_or_number l /\ s' = GTime (last (map instant l) t).
Proof.
  induction l as [|j l IH]; intros t s'; cbn [dec_seq].
  - cbn [map last]. split; [intros [= <-]; auto|intros [_ ->]; reflexivity].
  - rewrite last_map_cons. cbn [c_dec time_codec]. unfold null_or_number.
    destruct j; cbn [dec_time bind instant]; try (split; [discriminate|intros [H _]; inversion H as [|? ? [E|[q E]] _]; discriminate E]);
      rewrite IH; (split; intros [H ->]; (split; [|reflexivity]); [constructor; unfold null_or_number; eauto|now inversion H]).
Qed.
Lemma dec_seq_opt_time l : forall t s', dec_seq time_ptr_codec (GTimePtr t) l = Ok s' <->
  Forall null_or_number l /\ s' = GTimePtr (last (map opt_instant l) t).
Proof.
  induction l as [|j l IH]; intros t s'; cbn [dec_seq].
  - cbn [map last]. split; [intros [= <-]; auto|intros [_ ->]; reflexivity].
  - rewrite last_map_cons. cbn [c_dec time_ptr_codec]. unfold null_or_number.
    destruct j; cbn [dec_time_ptr bind opt_instant]; try (split; [discriminate|intros [H _]; inversion H as [|? ? [E|[q E]] _]; discriminate E]);
      rewrite IH; (split; intros [H ->]; (split; [|reflexivity]); [constructor; unfold null_or_number; eauto|now inversion H]).
Qed.
Lemma int_condition q : (Pos.eqb (Qden (Qred q)) 1 && Z.eqb (wrap64 (Qnum (Qred q))) (Qnum (Qred q)))%bool = true <-> int64 (JNum q).
Proof.
  rewrite Bool.andb_true_iff, Pos.eqb_eq, Z.eqb_eq. split.
  - intros [D W]. exists q, (Qnum (Qred q)). split; [reflexivity|]. split.
    + rewrite <- (Qred_correct q) at 1. destruct (Qred q) as [n d]. cbn in *. now subst.
    + unfold wrap64 in W. pose proof (Z.mod_pos_bound (Qnum (Qred q) + 2 ^ 63) (2 ^ 64) eq_refl). lia.
  - intros (q' & z & [= <-] & E & R). assert (Q : Qred q = inject_Z z).
    { rewrite (Qred_complete _ _ E). apply Qcanon.Qred_iff. apply Z.gcd_1_r. }
    rewrite Q. cbn. split; [reflexivity|]. now apply wrap64_small.
Qed.
Lemma dec_seq_int l : forall x s', dec_seq int_codec (GRaw x) l = Ok s' <->
  Forall (fun x => x = JNull \/ int64 x) l /\ s' = GRaw (last (numbers l) x).
Proof.
  assert (NI : forall j, int64 j -> exists q, j = JNum q) by (intros j (q & z & -> & _); eauto).
  induction l as [|j l IH]; intros x s'; cbn [dec_seq numbers filter].
  - cbn [last]. split; [intros [= <-]; auto|intros [_ ->]; reflexivity].
  - cbn [c_dec int_codec]. destruct j;
      try (cbn [bind]; split; [discriminate|intros [H _]; inversion H as [|? ? [E|E] _]; [discriminate E|apply NI in E as [q' E]; discriminate E]]).
    + cbn [bind]. rewrite IH. split; intros [H ->]; (split; [|reflexivity]); [constructor; auto|now inversion H].
    + rewrite last_cons. fold (numbers l). destruct (_ && _)%bool eqn:C; cbn [bind].
      * apply int_condition in C. rewrite IH. split; intros [H ->]; (split; [|reflexivity]); [constructor; auto|now inversion H].
      * split; [discriminate|]. intros [H _]. inversion H as [|? ? [E|E] _]; [discriminate E|]. apply int_condition in E. congruence.
Qed.

(** ** Whole structs *)
Lemma members_named t o : members t (JObj o) = named t o.
Proof. reflexivity. Qed.
Definition others (names : list string) (j : json) : smap json :=
  match j with JObj o => filter (fun kv => negb (mem (fst kv) names)) (as_map o) | _ => [] end.
Definition field_says (j : json) {V} (f : jfield V) (v : V) : Prop :=
  dec_seq (f_codec f) (c_zero (f_codec f)) (members (f_tag f) j) = Ok v.

Lemma zeros_nth {V} (fs : list (jfield V)) i f : nth_error fs i = Some f -> nth_error (zeros fs) i = Some (c_zero (f_codec f)).
Proof. intros H. unfold zeros. now rewrite nth_error_map, H. Qed.

Lemma fields_exact {V} (fs : list (jfield V)) o vs : distinct_names fs ->
  (dec_fields fs o (zeros fs) = Ok vs <-> Forall2 (field_says (JObj o)) fs vs).
Proof.
  intros D. rewrite dec_fields_exact by (auto; apply map_length). split.
  - intros [L H]. assert (H' : forall i f, nth_error fs i = Some f -> exists v, nth_error vs i = Some v /\ field_says (JObj o) f v).
    { intros i f F. exact (H i f _ F (zeros_nth _ _ _ F)). }
    clear H D. revert vs L H'. induction fs as [|f fs IH]; intros [|v vs] L H; try discriminate; constructor.
    + destruct (H 0 f eq_refl) as (v' & [= <-] & S). exact S.
    + apply IH; [now injection L|]. intros i g G. exact (H (S i) g G).
  - intros F. split; [clear D; induction F; cbn; congruence|]. intros i f v Hf Hv. rewrite (zeros_nth _ _ _ Hf) in Hv. injection Hv as <-.
    clear D. revert i f Hf. induction F as [|g w fs' vs' S F IH]; intros [|i] f Hf; try discriminate; cbn in *.
    + injection Hf as <-. eauto.
    + now apply IH.
Qed.
Lemma fields_null {V} (fs : list (jfield V)) vs : Forall2 (field_says JNull) fs vs <-> vs = zeros fs.
Proof.
  split.
  - intros F. induction F as [|f v fs vs S F IH]; [reflexivity|]. cbn [zeros map]. cbn in S. injection S as <-. now rewrite IH.
  - intros ->. induction fs as [|f fs IH]; constructor; auto. reflexivity.
Qed.

Theorem decode_exact {V} (fs : list (jfield V)) j vs ex : distinct_names fs ->
  (decode fs j = Ok (vs, ex) <-> is_object j /\ Forall2 (field_says j) fs vs /\ ex = others (tags fs) j).
Proof.
  intros D. unfold decode, unmarshal_with_extra. destruct j as [| | | | |o];
    try (split; [discriminate|intros ([E|[o E]] & _); discriminate E]).
  - rewrite fields_null. cbn [others]. split; [intros [= <- <-]|intros (_ & -> & ->)]; auto. split; [now left|auto].
  - cbn [others]. rewrite <- fields_exact by exact D. destruct (dec_fields fs o (zeros fs)) as [vs'| |]; cbn [bind].
    + split; [intros [= <- <-]; split; [right; eauto|auto]|intros (_ & [= <-] & ->); reflexivity].
    + split; [discriminate|intros (_ & E & _); discriminate E].
    + split; [discriminate|intros (_ & E & _); discriminate E].
Qed.
Theorem unmarshal_exact {V} (fs : list (jfield V)) j vs : distinct_names fs ->
  (unmarshal fs j = Ok vs <-> is_object j /\ Forall2 (field_says j) fs vs).
Proof.
  intros D. unfold unmarshal. destruct j as [| | | | |o];
    try (split; [discriminate|intros ([E|[o E]] & _); discriminate E]).
  - rewrite fields_null. split; [intros [= <-]|intros (_ & ->)]; auto. split; [now left|auto].
  - rewrite <- fields_exact by exact D. split; [intros ->; split; [right; eauto|auto]|tauto].
Qed.

Lemma others_says j names : says_others j names (others names j).
Proof.
  unfold says_others, others. destruct j as [| | | | |o]; try (split; [constructor|intros k; cbn; now destruct (mem k names)]).
  split; [apply keys_filter, as_map_NoDup|]. intros k. cbn [claim]. rewrite <- lookup_as_map.
  generalize (as_map o). intros m. induction m as [|[k' v] m IH]; cbn [filter lookup fst]; [now destruct (mem k names)|].
  destruct (mem k' names) eqn:M; cbn [negb].
  - rewrite IH. destruct (String.eqb_spec k k') as [->|]; [now rewrite M|reflexivity].
  - cbn [lookup]. destruct (String.eqb_spec k k') as [->|]; [now rewrite M|exact IH].
Qed.

Lemma text_field j t om v : field_says j (JField t om str_codec) v <-> exists s, v = GStr s /\ says_text j t s.
Proof.
  unfold field_says, says_text. cbn [f_codec f_tag c_zero str_codec]. fold str_codec. rewrite dec_seq_text. split.
  - intros [H ->]. eauto.
  - intros (s & -> & H & ->). auto.
Qed.
Lemma time_field j t om v : field_says j (JField t om time_codec) v <-> exists s, v = GTime s /\ says_time j t s.
Proof.
  unfold field_says, says_time. cbn [f_codec f_tag c_zero time_codec]. fold time_codec. rewrite dec_seq_time. split.
  - intros [H ->]. eauto.
  - intros (s & -> & H & ->). auto.
Qed.
Lemma opt_time_field j t om v : field_says j (JField t om time_ptr_codec) v <-> exists s, v = GTimePtr s /\ says_opt_time j t s.
Proof.
  unfold field_says, says_opt_time. cbn [f_codec f_tag c_zero time_ptr_codec]. fold time_ptr_codec. rewrite dec_seq_opt_time. split.
  - intros [H ->]. eauto.
  - intros (s & -> & H & ->). auto.
Qed.
Lemma int_field j t om v : field_says j (JField t om int_codec) v <-> exists s, v = GRaw s /\ says_int j t s.
Proof.
  unfold field_says, says_int. cbn [f_codec f_tag c_zero int_codec]. fold int_codec. rewrite dec_seq_int. split.
  - intros [H ->]. eauto.
  - intros (s & -> & H & ->). auto.
Qed.
Lemma says_text_fun j t s s' : says_text j t s -> says_text j t s' -> s = s'.
Proof. intros [_ ->] [_ ->]. reflexivity. Qed.
