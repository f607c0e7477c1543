(** A concrete case for applying a policy twice. *)
From Verif Require Import Base GoVal Policy Schema Metadata SpecPolicy SpecMetadata SpecTwice TwiceFacts.
From Verif Require Import SpecSingle WitnessPolicy WitnessSingle.
Local Open Scope string_scope.

Definition e_contacts : entry := [("add", jarr ["ops@ta"; "sec@ta"]); ("subset_of", jarr ["ops@ta"; "sec@ta"; "rp"])].
Definition s_contacts : sentry := SEntry None (Some ["ops@ta"; "sec@ta"]) None None (Some ["ops@ta"; "sec@ta"; "rp"]) None None.
Definition p_both : policy := [(AM, e_top); ("contacts", e_contacts)].

Lemma contacts_denotes : denotes e_contacts s_contacts.
Proof.
  constructor; cbn.
  - repeat constructor; simpl; try tauto. intros [K|[]]; discriminate K.
  - intros k K. repeat destruct K as [<-|K]; auto 10; contradiction.
  - reflexivity.
  - eexists. split; [reflexivity|]. right. exists TAny, false. auto.
  - reflexivity.
  - reflexivity.
  - eexists. split; [reflexivity|]. right. exists TAny, false. auto.
  - reflexivity.
  - reflexivity.
Qed.

Lemma both_entries t e : lookup t p_both = Some e -> (t = AM /\ e = e_top) \/ (t = "contacts" /\ e = e_contacts).
Proof.
  unfold p_both. cbn [lookup fst snd]. destruct (String.eqb_spec t AM) as [-> |_]; [intros E; injection E as <-; auto|].
  destruct (String.eqb_spec t "contacts") as [-> |_]; [intros E; injection E as <-; auto|discriminate].
Qed.

Lemma both_rows r v : In (r, v) (em_fields rp_silent) -> fr_tag r = AM \/ fr_tag r = "contacts" ->
  (r, v) = (r_method, VStr "") \/ (r, v) = (FRow "Contacts" "contacts" true (TSlice TStr), VSlice TStr true []).
Proof.
  intros H T. assert (K : In (r, v) (filter (fun x : frow * gval => (String.eqb (fr_tag (fst x)) AM || String.eqb (fr_tag (fst x)) "contacts")%bool) (em_fields rp_silent))).
  { apply filter_In. split; auto. cbn [fst]. destruct T as [-> | ->]; reflexivity. }
  vm_compute in K. destruct K as [K|[K|[]]]; rewrite <- K; auto.
Qed.

Lemma twice_case : exists m1, apply_policy rp_silent p_both = Ok m1 /\ plain rp_silent p_both /\
  em_tag AM m1 = Some (VStr "private_key_jwt") /\ em_tag "contacts" m1 = Some (VSlice TStr false [VStr "ops@ta"; VStr "sec@ta"]) /\
  (forall r v e, In (r, v) (em_fields rp_silent) -> mem (fr_name r) (em_set rp_silent) = false -> lookup (fr_tag r) p_both = Some e -> ~ demanding e).
Proof.
  eexists. split; [vm_compute; reflexivity|]. split; [|split; [vm_compute; reflexivity|split; [vm_compute; reflexivity|]]].
  - intros r v e Hin L. apply both_entries in L as [[T ->]|[T ->]].
    + destruct (both_rows r v Hin (or_introl T)) as [E|E]; injection E as -> ->; [|discriminate T].
      split; [|split; [reflexivity|reflexivity]]. right. split; [now left|]. exists s_top. apply top_states.
    + destruct (both_rows r v Hin (or_intror T)) as [E|E]; injection E as -> ->; [discriminate T|].
      split; [|split; [exists true, []; reflexivity|reflexivity]]. left. split; [reflexivity|]. split; [discriminate|].
      exists s_contacts. split; [apply contacts_denotes|]. split; [|split; [|discriminate]].
      * intros k v [-> | ->]; discriminate.
      * repeat constructor; simpl; try tauto. intros [K|[]]; discriminate K.
  - intros r v e _ _ L (E & _). apply both_entries in L as [[_ ->]|[_ ->]]; discriminate E.
Qed.
Lemma fails_case : exists m1 r, apply_policy rp_silent twice = Ok m1 /\
  In (r, VSlice TStr false [VStr "a"]) (em_fields m1) /\ mem (fr_name r) (em_set rp_silent) = false /\
  exists e, lookup (fr_tag r) twice = Some e /\ demanding e.
Proof.
  eexists. exists (FRow "Contacts" "contacts" true (TSlice TStr)). split; [vm_compute; reflexivity|]. split.
  - match goal with |- In ?x ?l => let l' := eval vm_compute in l in change (In x l') end. repeat (try (left; reflexivity); right).
  - split; [reflexivity|]. eexists. split; [reflexivity|].
    split; [reflexivity|]. split; [reflexivity|]. split; [reflexivity|]. split; [eexists; reflexivity|].
    exists "subset_of". eexists. split; [right; now left|reflexivity].
Qed.
