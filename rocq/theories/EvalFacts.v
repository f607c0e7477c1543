(** Proofs about the evaluation of one entity, and about the filters. *)
From Coq Require Import Lia.
From Verif Require Import Base GoVal Policy Schema Metadata Chain Resolver FloatTime Json TrustMark Discovery SpecMetadata SpecDiscovery
  BaseFacts JsonFacts.
Local Open Scope nat_scope.
Local Open Scope string_scope.
Local Open Scope list_scope.

(** ** Typed entries *)
Lemma in_typed_entries m ty x : In (ty, x) (typed_entries m) <-> has_type m ty /\ typed_field m ty = Some x.
Proof.
  unfold typed_entries, has_type. rewrite !in_app_iff. split.
  - intros [H|[H|[H|[H|[H|H]]]]]; (destruct (md_op m) eqn:E1, (md_rp m) eqn:E2, (md_as m) eqn:E3, (md_oc m) eqn:E4, (md_pr m) eqn:E5, (md_fe m) eqn:E6 || idtac);
      cbn in H; try contradiction; destruct H as [[= <- <-]|[]]; unfold typed_field; cbn; (split; [split; [cbn; tauto|]|]);
      rewrite ?E1, ?E2, ?E3, ?E4, ?E5, ?E6; congruence.
  - intros [[I _] F]. cbn in I. destruct I as [<-|[<-|[<-|[<-|[<-|[<-|[]]]]]]]; unfold typed_field in F; cbn in F; rewrite F; cbn; tauto.
Qed.
Lemma in_guess m ty : In ty (guess_entity_types m) <-> has_type m ty.
Proof.
  assert (E : guess_entity_types m = map fst (typed_entries m)).
  { unfold guess_entity_types, typed_entries. rewrite !map_app.
    destruct (md_op m), (md_rp m), (md_as m), (md_oc m), (md_pr m), (md_fe m); reflexivity. }
  rewrite E, in_map_iff. split.
  - intros ([t x] & <- & I). now apply in_typed_entries in I.
  - intros H. destruct (typed_field m ty) as [x|] eqn:F; [|destruct H as [_ H]; congruence].
    exists (ty, x). split; [reflexivity|]. now apply in_typed_entries.
Qed.
Lemma typed_entries_nodup m : NoDup (map fst (typed_entries m)).
Proof.
  unfold typed_entries. destruct (md_op m), (md_rp m), (md_as m), (md_oc m), (md_pr m), (md_fe m); cbn;
    repeat constructor; cbn; intuition discriminate.
Qed.

(** ** The filters of a request *)
Lemma type_ok_spec rq m : type_ok rq (guess_entity_types m) = true <->
  (forall l, cr_types rq = Some l -> exists t, In t l /\ has_type m t).
Proof.
  unfold type_ok. destruct (cr_types rq) as [l|]; [|split; [discriminate|reflexivity]].
  rewrite existsb_exists. split.
  - intros (t & I & M) l0 [= <-]. exists t. apply mem_In in M. apply in_guess in I. auto.
  - intros H. destruct (H l eq_refl) as (t & I & T). exists t. split; [now apply in_guess|now apply mem_In].
Qed.

Lemma second_match ty : second_name ty = (if mem ty ["openid_relying_party"; "oauth_client"] then "ClientName"
                  else if String.eqb ty "oauth_resource" then "ResourceName"
                  else "OrganizationName").
Proof.
  unfold second_name, mem. cbn [existsb].
  destruct (String.eqb ty "openid_relying_party"), (String.eqb ty "oauth_client"); reflexivity.
Qed.
Lemma in_display_names m ty name : In (ty, name) (guess_display_names m) <-> shown_name m ty name.
Proof.
  unfold guess_display_names, shown_name. rewrite in_map_iff. split.
  - intros ([t x] & [= <- <-] & I). apply in_typed_entries in I. destruct I as [T F]. exists x.
    split; [exact T|]. split; [exact F|]. cbn [fst snd]. cbv zeta. rewrite <- second_match. reflexivity.
  - intros (x & T & F & N). exists (ty, x). split; [|now apply in_typed_entries].
    cbn [fst snd]. rewrite N. cbv zeta. rewrite <- second_match. reflexivity.
Qed.

Lemma name_ok_spec ce rq m : name_ok ce rq (guess_display_names m) = true <->
  (cr_name rq <> "" -> exists ty name, shown_name m ty name /\ ce_fuzzy ce (cr_name rq) name = true).
Proof.
  unfold name_ok. destruct (String.eqb_spec (cr_name rq) "") as [E|N]; cbn [orb].
  - split; [intros _ H; now destruct H|reflexivity].
  - rewrite existsb_exists. split.
    + intros (name & I & F) _. apply in_map_iff in I. destruct I as ([ty n] & <- & I). exists ty, n. split; [|exact F].
      now apply in_display_names.
    + intros H. destruct (H N) as (ty & name & S & F). exists name. split; [|exact F].
      apply in_map_iff. exists (ty, name). split; [reflexivity|]. now apply in_display_names.
Qed.

Lemma find_first cfg ty t : find_by_id ty (infos_of cfg) = Some t <-> first_mark cfg ty t.
Proof.
  unfold find_by_id, infos_of, first_mark. generalize (st_marks cfg) as l. induction l as [|[a j] l IH]; cbn.
  - split; [discriminate|]. intros (l1 & jwt & l2 & E & _). now destruct l1.
  - destruct (String.eqb_spec a ty) as [-> |N].
    + split.
      * intros [= <-]. exists [], j, l. cbn. auto.
      * intros (l1 & jwt & l2 & E & NI & ->). destruct l1 as [|[b k] l1]; cbn in E.
        -- now injection E as <- <-.
        -- injection E as <- <- _. destruct NI. now left.
    + rewrite IH. split.
      * intros (l1 & jwt & l2 & -> & NI & ->). exists ((a, j) :: l1), jwt, l2. cbn. repeat split. intros [E|I]; auto.
      * intros (l1 & jwt & l2 & E & NI & ->). destruct l1 as [|[b k] l1]; cbn in E.
        -- injection E as -> _ _. now destruct N.
        -- injection E as <- <- ->. exists l1, jwt, l2. cbn in NI. repeat split; auto.
Qed.

Lemma marks_ok_spec fuel e p cfg ta : forall types i b,
  marks_ok fuel e p i types (infos_of cfg) ta = Done (Ok b) ->
  (b = true <-> forall j ty, nth_error types j = Some ty -> exists t s, first_mark cfg ty t /\ ta = Some s /\
     verify_mark fuel e ((i + j) :: p) t s = Done (Ok tt)).
Proof.
  induction types as [|ty types IH]; intros i b; cbn [marks_ok].
  - intros [= <-]. split; [intros _ [|j] ty; discriminate|reflexivity].
  - destruct (find_by_id ty (infos_of cfg)) as [t|] eqn:F.
    2: { intros [= <-]. split; [discriminate|]. intros H. destruct (H 0 ty eq_refl) as (t & s & M & _).
         apply find_first in M. congruence. }
    apply find_first in F. destruct ta as [s|].
    2: { intros [= <-]. split; [discriminate|]. intros H. destruct (H 0 ty eq_refl) as (? & ? & _ & E & _). discriminate. }
    destruct (verify_mark fuel e (i :: p) t s) as [[[]| |]|] eqn:V; try discriminate.
    + intros H. apply IH in H. rewrite H. clear H. split.
      * intros H [|j] ty0 N.
        -- injection N as <-. exists t, s. rewrite Nat.add_0_r. auto.
        -- destruct (H j ty0 N) as (t0 & s0 & M & E & W). exists t0, s0. rewrite Nat.add_succ_r. auto.
      * intros H j ty0 N. destruct (H (S j) ty0 N) as (t0 & s0 & M & E & W). exists t0, s0.
        rewrite Nat.add_succ_r in W. auto.
    + intros [= <-]. split; [discriminate|]. intros H. destruct (H 0 ty eq_refl) as (t0 & s0 & M & E & W).
      injection E as <-. rewrite Nat.add_0_r in W.
      apply find_first in F. apply find_first in M. assert (t0 = t) by congruence. subst. congruence.
Qed.

Lemma rbind_ok {A B} (a : run A) (f : A -> run B) b : rbind a f = Done (Ok b) -> exists x, a = Done (Ok x) /\ f x = Done (Ok b).
Proof. destruct a as [[x| |]|]; try discriminate. eauto. Qed.

(** An entity is included exactly if it passes the filters. *)
Lemma evaluate_spec fuel ce rq q sub cfg m r : evaluate fuel ce rq q sub cfg m = Done (Ok r) ->
  (r <> None <-> passes fuel ce rq q cfg m) /\
  (forall e, r = Some e -> ce_id e = sub /\ ce_types e = (if wants rq "entity_types" then guess_entity_types m else []) /\
     ui_infos rq m = Ok (ce_ui e)).
Proof.
  unfold evaluate. intros H. apply rbind_ok in H. destruct H as (mk & M & H).
  pose proof (marks_ok_spec _ _ _ _ _ _ _ _ M) as MS.
  pose proof (type_ok_spec rq m) as TS. pose proof (name_ok_spec ce rq m) as NS.
  assert (PS : type_ok rq (guess_entity_types m) && name_ok ce rq (guess_display_names m) && mk = true <-> passes fuel ce rq q cfg m).
  { unfold passes. rewrite <- TS, <- NS. rewrite !Bool.andb_true_iff, MS. cbn [Nat.add]. tauto. }
  rewrite <- PS. destruct (type_ok rq (guess_entity_types m) && name_ok ce rq (guess_display_names m) && mk).
  - apply rbind_ok in H. destruct H as (ui & U & H). apply rbind_ok in H. destruct H as (pl & P & H).
    apply rbind_ok in H. destruct H as (marks & K & H). injection H as <-. split; [split; [reflexivity|discriminate]|].
    intros e [= <-]. cbn. injection U as U. auto.
  - injection H as <-. split; [split; [congruence|discriminate]|discriminate].
Qed.

Lemma answer_spec fuel ce rq q sub r : entity_answer fuel ce rq q sub = Done (Ok r) ->
  ((exists e, fst r = Some e) <-> exists cfg m, te_config (ce_env ce) (2 :: q) sub = Some cfg /\ st_metadata cfg = Some m /\
     passes fuel ce rq q cfg m) /\
  (snd r = true <-> exists cfg, te_config (ce_env ce) (2 :: q) sub = Some cfg /\ list_endpoint cfg <> "") /\
  (forall e, fst r = Some e -> ce_id e = sub).
Proof.
  unfold entity_answer. destruct (te_config (ce_env ce) (2 :: q) sub) as [cfg|].
  2: { intros [= <-]. cbn. split; [split; [intros [e E]; discriminate|intros (? & ? & ? & _); discriminate]|].
       split; [split; [discriminate|intros (? & ? & _); discriminate]|discriminate]. }
  destruct (st_metadata cfg) as [m|] eqn:SM.
  2: { intros [= <-]. cbn. split; [split; [intros [e E]; discriminate|]|].
       { intros (c & m & [= <-] & E & _). congruence. }
       split; [split; [discriminate|]|discriminate]. intros (c & [= <-] & E). unfold list_endpoint in E. rewrite SM in E. now destruct E. }
  intros H. apply rbind_ok in H. destruct H as (x & E & H). injection H as <-. cbn [fst snd].
  apply evaluate_spec in E. destruct E as [E1 E2]. split; [|split].
  - split.
    + intros [e ->]. exists cfg, m. split; [reflexivity|]. split; [exact SM|]. apply E1. discriminate.
    + intros (c & m' & [= <-] & E3 & P). assert (m' = m) by congruence. subst. apply E1 in P. destruct x as [e|]; [eauto|congruence].
  - destruct (String.eqb_spec (list_endpoint cfg) "") as [L|L]; cbn [negb].
    + split; [discriminate|]. intros (c & [= <-] & N). contradiction.
    + split; [eauto|reflexivity].
  - intros e ->. now apply E2.
Qed.

(** ** UI infos *)
Lemma tag_not_raw tag : In tag ("keywords" :: ui_strings) ->
  index_of (fun t => String.eqb (tag_name t) tag) (map raw_tag ui_fields) = None.
Proof. cbn [In ui_strings]. intros I. repeat (destruct I as [<-|I]; [vm_compute; reflexivity|]). contradiction. Qed.

Definition uival (m : smap uiinfo) (ty tag : string) : option json :=
  match lookup ty m with Some u => lookup tag (ui_extra u) | None => None end.
Definition plain (m : smap uiinfo) : Prop := forall ty u, lookup ty m = Some u -> ui_vals u = zeros ui_fields /\ NoDup (keys (ui_extra u)).

Lemma put_ui_eq ty tag v m : In tag ("keywords" :: ui_strings) ->
  put_ui ty tag v m = insert ty (UI (ui_vals (match lookup ty m with Some u => u | None => zero_ui end))
                                    (insert tag (dyn v) (ui_extra (match lookup ty m with Some u => u | None => zero_ui end)))) m.
Proof. intros I. unfold put_ui, set_ui_field. rewrite (tag_not_raw tag I). reflexivity. Qed.
Lemma put_ui_plain ty tag v m : In tag ("keywords" :: ui_strings) -> plain m -> plain (put_ui ty tag v m).
Proof.
  intros I P t u. rewrite (put_ui_eq ty tag v m I), lookup_insert. destruct (String.eqb t ty); [|apply P].
  intros [= <-]. cbn [ui_vals ui_extra]. destruct (lookup ty m) eqn:L.
  - destruct (P ty _ L). split; [assumption|now apply keys_insert_NoDup].
  - split; [reflexivity|]. apply keys_insert_NoDup. constructor.
Qed.
Lemma put_ui_val ty tag v m t g : In tag ("keywords" :: ui_strings) ->
  uival (put_ui ty tag v m) t g = if String.eqb t ty && String.eqb g tag then Some (dyn v) else uival m t g.
Proof.
  intros I. rewrite (put_ui_eq ty tag v m I). unfold uival. rewrite lookup_insert.
  destruct (String.eqb_spec t ty) as [-> |N]; cbn [andb]; [|reflexivity].
  cbn [ui_extra]. rewrite lookup_insert. destruct (String.eqb g tag); [reflexivity|].
  destruct (lookup ty m); reflexivity.
Qed.

(** A sequence of puts for one tag. *)
Definition puts (tag : string) (l : list (string * string)) (m : smap uiinfo) : smap uiinfo :=
  fold_left (fun acc tv => put_ui (fst tv) tag (GStr (snd tv)) acc) l m.
Lemma puts_plain tag l : forall m, In tag ("keywords" :: ui_strings) -> plain m -> plain (puts tag l m).
Proof. induction l as [|tv l IH]; intros m I P; [exact P|]. apply IH; [exact I|]. now apply put_ui_plain. Qed.
Lemma puts_val tag l : forall m t g, In tag ("keywords" :: ui_strings) -> NoDup (map fst l) ->
  uival (puts tag l m) t g =
    if String.eqb g tag then match lookup t l with Some v => Some (JStr v) | None => uival m t g end else uival m t g.
Proof.
  induction l as [|[ty v] l IH]; intros m t g I ND; cbn [puts fold_left lookup].
  - now destruct (String.eqb g tag).
  - inversion ND as [|x y NI ND2]; subst. change (fold_left _ l _) with (puts tag l (put_ui ty tag (GStr v) m)).
    rewrite IH by assumption. rewrite put_ui_val by exact I. cbn [fst] in *.
    destruct (String.eqb_spec g tag) as [-> |Ng]; [|now rewrite Bool.andb_false_r].
    rewrite Bool.andb_true_r. destruct (String.eqb_spec t ty) as [-> |Nt]; [|reflexivity].
    destruct (lookup ty l) eqn:L; [|reflexivity]. destruct NI. apply lookup_In in L. apply in_map_iff. now exists (ty, s).
Qed.

Definition names_list (m : metadata) : list (string * string) :=
  filter (fun tn => negb (String.eqb (snd tn) "")) (guess_display_names m).
Definition claims_for (rq : crequest) (m : metadata) (tag : string) : list (string * string) :=
  if wants rq tag then (if String.eqb tag "display_name" then names_list m else string_claims tag m) else [].

Lemma ui_infos_eq rq m ui : ui_infos rq m = Ok ui ->
  ui = puts "display_name" (claims_for rq m "display_name")
        (puts "information_uri" (claims_for rq m "information_uri")
          (puts "policy_uri" (claims_for rq m "policy_uri")
            (puts "logo_uri" (claims_for rq m "logo_uri")
              (puts "description" (claims_for rq m "description") [])))).
Proof.
  unfold ui_infos. intros H.
  assert (S : string_infos rq m = puts "information_uri" (claims_for rq m "information_uri")
          (puts "policy_uri" (claims_for rq m "policy_uri")
            (puts "logo_uri" (claims_for rq m "logo_uri")
              (puts "description" (claims_for rq m "description") [])))).
  { unfold string_infos, ui_claims, claims_for. cbn [fold_left].
    destruct (wants rq "description"), (wants rq "logo_uri"), (wants rq "policy_uri"), (wants rq "information_uri"); reflexivity. }
  rewrite <- S. clear S.
  assert (K : Ok ui = Ok (if wants rq "display_name"
      then fold_left (fun acc tn => if String.eqb (snd tn) "" then acc else put_ui (fst tn) "display_name" (GStr (snd tn)) acc)
                     (guess_display_names m) (string_infos rq m)
      else string_infos rq m)).
  { destruct (wants rq "keywords"); [|now rewrite <- H].
    unfold slice_claims in H. destruct (existsb _ (typed_entries m)); [discriminate|]. cbn [bind fold_left] in H. now rewrite <- H. }
  injection K as ->. unfold claims_for. destruct (wants rq "display_name"); [|reflexivity].
  rewrite String.eqb_refl. unfold names_list.
  generalize (string_infos rq m) as acc. generalize (guess_display_names m) as l.
  induction l as [|[t n] l IH]; intros acc; [reflexivity|]. cbn [fold_left filter fst snd].
  destruct (String.eqb n ""); cbn [negb]; [apply IH|]. cbn [puts fold_left]. apply IH.
Qed.

Lemma NoDup_filter_fst {A B} (f : A * B -> bool) l : NoDup (map fst l) -> NoDup (map fst (filter f l)).
Proof.
  induction l as [|x l IH]; intros N; [exact N|]. inversion N as [|y k NI N2]; subst. cbn [filter].
  destruct (f x); [|auto]. cbn [map]. constructor; [|auto]. intros I. apply NI.
  apply in_map_iff in I. destruct I as (z & E & I). apply filter_In in I. apply in_map_iff. exists z. tauto.
Qed.
Lemma string_claims_fst tag m : forall t, In t (map fst (string_claims tag m)) -> In t (map fst (typed_entries m)).
Proof.
  intros t I. apply in_map_iff in I. destruct I as ([t' v] & <- & I). apply in_flat_map in I. destruct I as ([t0 x] & I & J).
  cbn [fst snd] in *. destruct (string_field tag x); [|contradiction]. destruct (String.eqb (str_of g) ""); [contradiction|].
  destruct J as [[= <- <-]|[]]. apply in_map_iff. now exists (t0, x).
Qed.
Lemma string_claims_nodup tag m : NoDup (map fst (string_claims tag m)).
Proof.
  unfold string_claims. pose proof (typed_entries_nodup m) as N. revert N. generalize (typed_entries m) as l.
  induction l as [|[t x] l IH]; intros N; [constructor|]. inversion N as [|y k NI N2]; subst. cbn [flat_map fst snd].
  rewrite map_app. destruct (string_field tag x) as [v|]; [|cbn; auto]. destruct (String.eqb (str_of v) ""); [cbn; auto|].
  cbn. constructor; [|auto]. intros I. apply NI. apply in_map_iff in I. destruct I as ([t' v'] & E & I). cbn [fst] in E. subst t'.
  apply in_flat_map in I. destruct I as ([t0 x0] & I & J). cbn [fst snd] in J.
  destruct (string_field tag x0) as [g|]; [|contradiction]. destruct (String.eqb (str_of g) ""); [contradiction|].
  destruct J as [[= <- <-]|[]]. apply in_map_iff. now exists (t0, x0).
Qed.
Lemma claims_nodup rq m tag : NoDup (map fst (claims_for rq m tag)).
Proof.
  unfold claims_for. destruct (wants rq tag); [|constructor]. destruct (String.eqb tag "display_name"); [|apply string_claims_nodup].
  apply NoDup_filter_fst. unfold guess_display_names. rewrite map_map. cbn [fst]. apply typed_entries_nodup.
Qed.

Lemma ui_infos_val rq m ui t g : ui_infos rq m = Ok ui -> In g ui_strings ->
  uival ui t g = option_map JStr (lookup t (claims_for rq m g)).
Proof.
  intros H I. apply ui_infos_eq in H. subst ui.
  repeat (rewrite puts_val by (auto using claims_nodup; cbn; tauto)).
  cbn [In ui_strings] in I. repeat (destruct I as [<-|I]; [cbn [String.eqb Ascii.eqb Bool.eqb]; cbv iota; cbn -[claims_for];
     match goal with |- context [lookup t (claims_for rq m ?x)] => destruct (lookup t (claims_for rq m x)) end; reflexivity|]).
  contradiction.
Qed.
Lemma ui_infos_plain rq m ui : ui_infos rq m = Ok ui -> plain ui.
Proof.
  intros H. apply ui_infos_eq in H. subst ui. repeat (apply puts_plain; [cbn; tauto|]). intros t u. discriminate.
Qed.
(** Nothing but the UI claims is stored, and no keywords. *)
Lemma ui_infos_keywords rq m ui t : ui_infos rq m = Ok ui -> uival ui t "keywords" = None.
Proof.
  intros H. apply ui_infos_eq in H. subst ui.
  repeat (rewrite puts_val by (auto using claims_nodup; cbn; tauto)). reflexivity.
Qed.

(** The fields with the UI tags are strings. *)
Lemma string_field_tag tag x : In tag ui_strings -> known_entity x -> string_field tag x = em_tag tag x.
Proof.
  intros I K. unfold string_field, em_tag, known_entity, entity_schemas in *.
  assert (F : forallb (fun r => implb (String.eqb tag (fr_tag r)) (is_string (fr_ty r))) (map fst (em_fields x)) = true).
  { cbn [In] in K. cbn [In ui_strings] in I.
    repeat (destruct K as [K|K]; [rewrite <- K; repeat (destruct I as [<-|I]; [vm_compute; reflexivity|]); contradiction|]). contradiction. }
  clear I K. induction (em_fields x) as [|[r v] l IH]; [reflexivity|]. cbn [map forallb fst] in F. apply andb_prop in F.
  destruct F as [F1 F2]. cbn [find fst]. rewrite (String.eqb_sym (fr_tag r) tag).
  destruct (String.eqb tag (fr_tag r)); cbn [implb andb] in *; [rewrite F1; reflexivity|]. now apply IH.
Qed.
Lemma no_string_keywords x : known_entity x -> string_field "keywords" x = None.
Proof.
  intros K. unfold string_field, known_entity, entity_schemas in *.
  assert (F : forallb (fun r => negb (String.eqb (fr_tag r) "keywords" && is_string (fr_ty r))) (map fst (em_fields x)) = true).
  { cbn [In] in K. repeat (destruct K as [K|K]; [rewrite <- K; vm_compute; reflexivity|]). contradiction. }
  clear K. induction (em_fields x) as [|[r v] l IH]; [reflexivity|]. cbn [map forallb fst] in F. apply andb_prop in F.
  destruct F as [F1 F2]. cbn [find fst]. apply Bool.negb_true_iff in F1. rewrite F1. now apply IH.
Qed.
(** Evaluating an entity with known metadata types does not panic in the UI part. *)
Lemma ui_infos_total rq m : known_types m -> exists ui, ui_infos rq m = Ok ui.
Proof.
  intros K. unfold ui_infos. assert (S : slice_claims "keywords" m = Ok []).
  { unfold slice_claims. destruct (existsb _ (typed_entries m)) eqn:E; [|reflexivity].
    apply existsb_exists in E. destruct E as ([t x] & I & F). apply in_typed_entries in I. cbn [snd] in F.
    rewrite no_string_keywords in F; [discriminate|]. now apply (K t). }
  rewrite S. destruct (wants rq "keywords"); cbn [bind]; eauto.
Qed.

Lemma lookup_unique {A} (l : list (string * A)) k v : NoDup (map fst l) -> (lookup k l = Some v <-> In (k, v) l).
Proof.
  intros N. split; [apply lookup_In|]. induction l as [|[a b] l IH]; [contradiction|]. inversion N as [|x y NI N2]; subst.
  cbn [lookup]. intros [[= -> ->]|I]; [now rewrite String.eqb_refl|]. destruct (String.eqb_spec k a) as [-> |]; [|auto].
  destruct NI. apply in_map_iff. now exists (a, v).
Qed.

Lemma claims_spec rq m tag t v : In tag ui_strings -> known_types m ->
  (forall ty x, typed_field m ty = Some x -> well_typed x) ->
  (lookup t (claims_for rq m tag) = Some v <-> wants rq tag = true /\ ui_claim m t tag v).
Proof.
  intros I K WT. rewrite lookup_unique by apply claims_nodup. unfold claims_for, ui_claim.
  destruct (wants rq tag); [|cbn; intuition discriminate].
  destruct (String.eqb tag "display_name").
  - unfold names_list. rewrite filter_In, in_display_names. cbn [snd]. destruct (String.eqb_spec v ""); cbn [negb]; intuition congruence.
  - unfold string_claims. rewrite in_flat_map. split.
    + intros ([t0 x] & J & L). apply in_typed_entries in J. destruct J as [J1 J2]. cbn [fst snd] in L.
      rewrite string_field_tag in L by (auto; now apply (K t0)). destruct (em_tag tag x) as [g|] eqn:E; [|contradiction].
      destruct (String.eqb_spec (str_of g) "") as [Z|Z]; [contradiction|]. destruct L as [[= <- <-]|[]].
      split; [reflexivity|]. split; [exact Z|]. exists x. repeat split; auto; try apply J1.
      rewrite E. destruct g; cbn in Z; try (now destruct Z). reflexivity.
    + intros (_ & Z & x & J1 & J2 & E). exists (t, x). split; [now apply in_typed_entries|]. cbn [fst snd].
      rewrite string_field_tag by (auto; now apply (K t)). rewrite E. cbn [str_of].
      destruct (String.eqb_spec v ""); [contradiction|]. now left.
Qed.

(** In the JSON form the claims have their places. *)
Lemma lookup_rev {A} (l : smap A) k : NoDup (keys l) -> lookup k (rev l) = lookup k l.
Proof.
  intros N. assert (N2 : NoDup (map fst (rev l))) by (rewrite map_rev; now apply NoDup_rev).
  destruct (lookup k l) as [v|] eqn:E.
  - apply lookup_unique; [exact N2|]. apply -> in_rev. now apply lookup_In.
  - destruct (lookup k (rev l)) as [v|] eqn:F; [|reflexivity]. apply lookup_In in F. apply in_rev in F.
    apply lookup_unique in F; [congruence|exact N].
Qed.
Lemma ui_json_plain u tag : ui_vals u = zeros ui_fields -> NoDup (keys (ui_extra u)) -> ui_json u tag = lookup tag (ui_extra u).
Proof.
  intros E N. unfold ui_json, marshal. rewrite E. change (enc_fields ui_fields (zeros ui_fields)) with (@nil (string * json)).
  rewrite lookup_overlay, lookup_rev by exact N. now destruct (lookup tag (ui_extra u)).
Qed.

Lemma ui_spec fuel ce rq q sub cfg m e : evaluate fuel ce rq q sub cfg m = Done (Ok (Some e)) -> known_types m ->
  (forall ty x, typed_field m ty = Some x -> well_typed x) ->
  forall ty tag j, In tag ui_strings ->
  ((exists u, lookup ty (ce_ui e) = Some u /\ ui_json u tag = Some j) <->
   exists v, j = JStr v /\ wants rq tag = true /\ ui_claim m ty tag v).
Proof.
  intros E K WT ty tag j I. apply evaluate_spec in E. destruct E as [_ E]. destruct (E e eq_refl) as (_ & _ & U).
  pose proof (ui_infos_val rq m _ ty tag U I) as V. pose proof (ui_infos_plain rq m _ U) as P. unfold uival in V. split.
  - intros (u & L & J). rewrite L in V. destruct (P ty u L) as [P1 P2]. rewrite (ui_json_plain u tag P1 P2) in J. rewrite J in V.
    destruct (lookup ty (claims_for rq m tag)) as [v|] eqn:C; [|discriminate]. injection V as ->. exists v. split; [reflexivity|].
    now apply claims_spec in C.
  - intros (v & -> & C). assert (C2 : lookup ty (claims_for rq m tag) = Some v) by now apply claims_spec.
    rewrite C2 in V. destruct (lookup ty (ce_ui e)) as [u|] eqn:L; [|discriminate]. exists u. split; [reflexivity|].
    destruct (P ty u L) as [P1 P2]. now rewrite (ui_json_plain u tag P1 P2).
Qed.
(** What a reader of the fields, or of the keywords, finds. *)
Lemma ui_fields_empty fuel ce rq q sub cfg m e : evaluate fuel ce rq q sub cfg m = Done (Ok (Some e)) ->
  forall ty u, lookup ty (ce_ui e) = Some u ->
  ui_vals u = zeros ui_fields /\ ui_json u "keywords" = None.
Proof.
  intros E ty u L. apply evaluate_spec in E. destruct E as [_ E]. destruct (E e eq_refl) as (_ & _ & U).
  destruct (ui_infos_plain rq m _ U ty u L) as [P1 P2]. split; [exact P1|]. rewrite (ui_json_plain u _ P1 P2).
  pose proof (ui_infos_keywords rq m _ ty U) as V. unfold uival in V. now rewrite L in V.
Qed.

(** ** Filters *)
Lemma approve_spec fs : forall b i e, approve fs b i e = true <-> (fs = [] /\ b = true) \/ (fs <> [] /\ forall f, In f fs -> f i e = true).
Proof.
  induction fs as [|f fs IH]; intros b i e; cbn [approve].
  - split; [auto|intros [[_ H]|[H _]]; [exact H|now destruct H]].
  - destruct (f i e) eqn:F.
    + rewrite IH. split.
      * intros [[-> _]|[_ H]]; right; (split; [discriminate|]); intros g [<-|G]; auto; contradiction.
      * intros [[H _]|[_ H]]; [discriminate|]. destruct fs as [|g fs]; [now left|right]. split; [discriminate|]. intros h I. apply H. now right.
    + split; [discriminate|]. intros [[H _]|[_ H]]; [discriminate|]. now rewrite <- F, (H f (or_introl eq_refl)).
Qed.

Lemma filter_entities_spec fs l : forall i, fs <> [] ->
  filter_entities fs i l = map snd (filter (fun ix => forallb (fun f => f (fst ix) (snd ix)) fs) (positions i l)).
Proof.
  induction l as [|e l IH]; intros i N; [reflexivity|]. cbn [filter_entities positions filter fst snd].
  assert (A : approve fs false i e = forallb (fun f => f i e) fs).
  { apply Bool.eq_true_iff_eq. rewrite approve_spec, forallb_forall. intuition. }
  rewrite A, IH by exact N. destruct (forallb (fun f => f i e) fs); reflexivity.
Qed.

Lemma filter_plain (fs : list (collected -> bool)) l : forall i, fs <> [] ->
  filter_entities (map (fun f _ => f) fs) i l = filter (fun e => forallb (fun f => f e) fs) l.
Proof.
  intros i N. rewrite filter_entities_spec by (destruct fs; [congruence|discriminate]).
  revert i. induction l as [|e l IH]; intros i; [reflexivity|]. cbn [positions filter fst snd].
  assert (E : forallb (fun f => f i e) (map (fun f (_ : nat) => f) fs) = forallb (fun f => f e) fs).
  { clear. induction fs as [|f fs IH]; [reflexivity|]. cbn. now rewrite IH. }
  rewrite E. destruct (forallb (fun f => f e) fs); cbn [map snd]; now rewrite IH.
Qed.

(** The filters on the metadata of an OP. *)
Lemma contains_strings x t nl l : slice_contains (VStr x) (VSlice t nl (map VStr l)) = mem x l.
Proof.
  unfold slice_contains, mem. induction l as [|y l IH]; [reflexivity|]. cbn [map existsb]. 
  cbn [map existsb] in IH. rewrite <- IH. reflexivity.
Qed.
Lemma supports_all_spec name needed m op nl sup : md_op m = Some op -> em_get name op = Some (VSlice TStr nl (map VStr sup)) ->
  supports_all name needed (Some m) = Ok (forallb (fun x => mem x sup) needed).
Proof.
  intros O G. unfold supports_all. rewrite O, G. unfold is_subset_of, strings, slicify. cbn [elems bind].
  f_equal. induction needed as [|x l IH]; [reflexivity|]. cbn [map forallb]. rewrite IH. now rewrite contains_strings.
Qed.
Lemma registers_spec how m op nl sup : md_op m = Some op ->
  em_get "ClientRegistrationTypesSupported" op = Some (VSlice TStr nl (map VStr sup)) ->
  registers how (Some m) = mem how sup.
Proof.
  intros O G. unfold registers, op_list. rewrite O, G. rewrite map_map. cbn [str_of]. now rewrite map_id.
Qed.
Lemma is_op_spec fuel ce rq q sub cfg m e : evaluate fuel ce rq q sub cfg m = Done (Ok (Some e)) -> wants rq "entity_types" = true ->
  (is_op e = true <-> md_op m <> None).
Proof.
  intros E WW. apply evaluate_spec in E. destruct E as [_ E]. destruct (E e eq_refl) as (_ & T & _). rewrite WW in T.
  unfold is_op. rewrite mem_In, T, in_guess. unfold has_type, typed_field. cbn. tauto.
Qed.

(** ** Remote collectors *)
Lemma ask_spec endpoint remote : forall ids i r, ask_collectors endpoint remote i ids = r ->
  match r with
  | Some l => exists ids1 a ids2, ids = ids1 ++ a :: ids2 /\ endpoint (i + List.length ids1) a <> "" /\
      remote (i + List.length ids1) (endpoint (i + List.length ids1) a) = Some l /\
      forall j b, nth_error ids1 j = Some b -> endpoint (i + j) b = "" \/ remote (i + j) (endpoint (i + j) b) = None
  | None => forall j b, nth_error ids j = Some b -> endpoint (i + j) b = "" \/ remote (i + j) (endpoint (i + j) b) = None
  end.
Proof.
  induction ids as [|a ids IH]; intros i r <-; cbn [ask_collectors].
  - intros [|j] b; discriminate.
  - assert (G : forall (K : endpoint i a = "" \/ remote i (endpoint i a) = None) r, ask_collectors endpoint remote (S i) ids = r ->
      match r with
      | Some l => exists ids1 a0 ids2, a :: ids = ids1 ++ a0 :: ids2 /\ endpoint (i + List.length ids1) a0 <> "" /\
          remote (i + List.length ids1) (endpoint (i + List.length ids1) a0) = Some l /\
          forall j b, nth_error ids1 j = Some b -> endpoint (i + j) b = "" \/ remote (i + j) (endpoint (i + j) b) = None
      | None => forall j b, nth_error (a :: ids) j = Some b -> endpoint (i + j) b = "" \/ remote (i + j) (endpoint (i + j) b) = None
      end).
    { intros K r H. apply IH in H. destruct r as [l|].
      - destruct H as (i1 & b & i2 & -> & N & R & P). exists (a :: i1), b, i2. cbn [List.length]. rewrite Nat.add_succ_r.
        repeat split; auto. intros [|j] c J; [injection J as <-; now rewrite Nat.add_0_r|]. rewrite Nat.add_succ_r. now apply P.
      - intros [|j] c J; [injection J as <-; now rewrite Nat.add_0_r|]. rewrite Nat.add_succ_r. now apply H. }
    destruct (String.eqb_spec (endpoint i a) "") as [Z|Z]; [apply G; auto|].
    destruct (remote i (endpoint i a)) as [l|] eqn:R; [|apply G; auto].
    exists [], a, ids. cbn [List.length]. rewrite Nat.add_0_r. repeat split; auto. intros [|j] b; discriminate.
Qed.
Lemma filterable_spec (valid : nat -> collected -> bool) fs l : filterable valid fs l =
  map snd (filter (fun ix => forallb (fun f => f (fst ix) (snd ix)) (valid :: fs)) (positions 0 l)).
Proof. unfold filterable. apply filter_entities_spec. discriminate. Qed.
Lemma filterable_plain (valid : collected -> bool) fs l :
  filterable (fun _ => valid) (map (fun f _ => f) fs) l = filter (fun e => valid e && forallb (fun f => f e) fs) l.
Proof. unfold filterable. exact (filter_plain (valid :: fs) l 0 ltac:(discriminate)). Qed.
Lemma no_op_spec name needed how m : (forall m', m = Some m' -> md_op m' = None) ->
  supports_all name needed m = Ok false /\ registers how m = false.
Proof. intros H. destruct m as [m|]; [|auto]. cbn. rewrite (H m eq_refl). auto. Qed.
Lemma smart_spec endpoint remote tas ta :
  match smart_collect endpoint remote tas ta with
  | Some l => exists ids1 a ids2, ta :: filter (fun x => negb (String.eqb x ta)) tas = ids1 ++ a :: ids2 /\
      endpoint (List.length ids1) a <> "" /\ remote (List.length ids1) (endpoint (List.length ids1) a) = Some l /\
      forall j b, nth_error ids1 j = Some b -> endpoint j b = "" \/ remote j (endpoint j b) = None
  | None => forall j b, nth_error (ta :: filter (fun x => negb (String.eqb x ta)) tas) j = Some b ->
      endpoint j b = "" \/ remote j (endpoint j b) = None
  end.
Proof. exact (ask_spec endpoint remote _ 0 _ eq_refl). Qed.
