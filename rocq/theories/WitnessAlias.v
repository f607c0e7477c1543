(** Concrete cases for PropertiesAlias.v: a relying party with two superiors, its contacts in
    an array with one unused cell, as encoding/json leaves it. *)
From Verif Require Import Base BaseFacts GoVal Policy Schema Metadata Chain SpecPolicy WitnessPolicy Alias SpecAlias AliasFacts.
From Verif Require JsonFacts.
Local Open Scope nat_scope.
Local Open Scope string_scope.

(** The index of contacts in the relying party struct. *)
Fixpoint index_of (tag : string) (l : list frow) : nat :=
  match l with [] => 0 | r :: l' => if String.eqb (fr_tag r) tag then 0 else S (index_of tag l') end.
Definition ci : nat := Eval vm_compute in index_of "contacts" rp_schema.

Definition three : list gval := [VStr "a"; VStr "b"; VStr "c"].
(** Addresses: 0 the contacts of the leaf (with or without an unused cell), 1 and 2 the
    operands of the two superiors. *)
Definition heap0 (spare : list gval) : heap :=
  [ Cell (SMd ERP ci) (Some 3) (three ++ spare)%list;
    Cell (SPol ERP "contacts" "add") (Some 1) [VStr "d"];
    Cell (SPol ERP "contacts" "add") (Some 1) [VStr "e"] ].

Definition hrp : hemeta :=
  HEMeta (map (fun r => (r, if String.eqb (fr_tag r) "contacts" then HS TStr 0 3 else HV (zero_of (fr_ty r)))) rp_schema)
         ["Contacts"].
Definition hleaf : hstmt := HStmt (bare "rp" "rp") None (Some (HMetadata None (Some hrp) None None None None [])).
Definition hsup (name : string) (a : nat) : hstmt :=
  HStmt (bare name "rp") (Some (HPolicies None (Some [("contacts", [("add", HS TAny a 1)])]) None None None None [])) None.
Definition chain_a : list hstmt := [hleaf; hsup "ta" 1].
Definition chain_b : list hstmt := [hleaf; hsup "tb" 2].

Definition grow0 (t : gty) (n : nat) : nat := n.

(** The contacts a caller reads in computed metadata. *)
Definition contacts_of (m : metadata) : option gval :=
  match md_rp m with
  | Some em => match find (fun fv => String.eqb (fr_tag (fst fv)) "contacts") (em_fields em) with Some fv => Some (snd fv) | None => None end
  | None => None
  end.

Lemma fields_placed spare : forall i fv, nth_error (hm_fields hrp) i = Some fv -> placed (heap0 spare) (SMd ERP i) (snd fv).
Proof.
  assert (P : forall l k, k = index_of "contacts" l -> NoDup (map fr_tag l) ->
     forall i fv, nth_error (map (fun r => (r, if String.eqb (fr_tag r) "contacts" then HS TStr 0 3 else HV (zero_of (fr_ty r)))) l) i = Some fv ->
     (i = k /\ snd fv = HS TStr 0 3) \/ exists t, snd fv = HV (zero_of t)).
  { induction l as [|r l IH]; intros k Ek N i fv E; [destruct i; discriminate|]. inversion N as [|? ? NI N']; subst.
    destruct i as [|i]; cbn [map nth_error index_of] in *.
    - injection E as <-. cbn [snd]. destruct (String.eqb (fr_tag r) "contacts"); [left; auto|right; eauto].
    - destruct (String.eqb_spec (fr_tag r) "contacts") as [ER|ER].
      + right. destruct (IH _ eq_refl N' i fv E) as [[Ei _]|R]; [|exact R]. exfalso.
        apply NI. rewrite ER. rewrite nth_error_map in E. destruct (nth_error l i) as [r'|] eqn:Er; [|discriminate].
        assert (X : forall l', index_of "contacts" l' < List.length l' -> In "contacts" (map fr_tag l')).
        { clear. induction l' as [|x l' IH]; cbn; [lia|]. destruct (String.eqb_spec (fr_tag x) "contacts"); [left; auto|].
          intros. right. apply IH. lia. }
        apply X. rewrite <- Ei. apply nth_error_Some. congruence.
      + destruct (IH _ eq_refl N' i fv E) as [[Ei R]|R]; [left; split; [now rewrite Ei|exact R]|right; exact R]. }
  intros i fv E. destruct (P rp_schema ci eq_refl) with (i := i) (fv := fv) as [[-> ->]|(t & ->)].
  - apply JsonFacts.nodupb_ok. vm_compute. reflexivity.
  - exact E.
  - cbn. exists (three ++ spare)%list. split; [reflexivity|]. rewrite app_length. cbn. lia.
  - cbn. apply zero_nil_empty.
Qed.

Lemma leaf_decoded spare : decoded (heap0 spare) hleaf.
Proof.
  split; [intros ? [=]|]. intros m [= <-].
  constructor; intros em i fv; cbn [hmd_op hmd_rp hmd_as hmd_oc hmd_pr hmd_fe]; try discriminate.
  intros [= <-] E. now apply fields_placed.
Qed.

Lemma sup_decoded spare name a : a = 1 \/ a = 2 -> decoded (heap0 spare) (hsup name a).
Proof.
  intros Ha. split; [|intros ? [=]]. intros p [= <-].
  constructor; intros q; cbn [hp_op hp_rp hp_as hp_oc hp_pr hp_fe hp_extra]; try discriminate; [|intros ? []].
  intros [= <-]. split; [repeat constructor; intros []|]. intros k e [[= <- <-]|[]].
  split; [repeat constructor; intros []|]. intros o x [[= <- <-]|[]].
  destruct Ha as [-> | ->]; cbn; eexists; (split; [reflexivity|cbn; lia]).
Qed.

Lemma chains_decoded spare : decoded_chain (heap0 spare) chain_a /\ decoded_chain (heap0 spare) chain_b.
Proof.
  split; intros s [<-|[<-|[]]]; try apply leaf_decoded; apply sup_decoded; auto.
Qed.

Lemma full_no_spare : no_spare (heap0 []).
Proof. intros [|[|[|a]]] c n; cbn; try (intros [= <-] [= <-]; reflexivity). destruct a; discriminate. Qed.

Lemma c83_case : decoded_chain (heap0 [VStr ""]) chain_a /\ decoded_chain (heap0 [VStr ""]) chain_b /\
  run_all grow0 [chain_a; chain_b] (heap0 [VStr ""]) <> heap0 [VStr ""] /\
  contacts_of (match st_metadata (read_stmt (run_all grow0 [chain_a; chain_b] (heap0 [VStr ""])) hleaf) with Some m => m | None => empty_metadata end)
  = Some (VSlice TStr false three).
Proof.
  destruct (chains_decoded [VStr ""]). split; [assumption|]. split; [assumption|]. split; [|vm_compute; reflexivity].
  vm_compute. discriminate.
Qed.

Lemma c84_case : decoded_chain (heap0 [VStr ""]) chain_a /\ decoded_chain (heap0 [VStr ""]) chain_b /\
  exists m, chain_metadata (map (read_stmt (heap0 [VStr ""])) chain_b) = Ok (Some m) /\
  contacts_of m = Some (VSlice TStr false (three ++ [VStr "e"])%list).
Proof.
  destruct (chains_decoded [VStr ""]). split; [assumption|]. split; [assumption|]. eexists. split; vm_compute; reflexivity.
Qed.

Lemma c71_witness : exists grow h c1 c2 m,
  decoded_chain h c1 /\ decoded_chain h c2 /\
  fst (hchain_metadata grow c1 h) = Ok (Some m) /\
  let h1 := snd (hchain_metadata grow c1 h) in
  let h2 := snd (hchain_metadata grow c2 h1) in
  contacts_of (read_metadata h1 m) = Some (VSlice TStr false [VStr "a"; VStr "b"; VStr "c"; VStr "d"]) /\
  contacts_of (read_metadata h2 m) = Some (VSlice TStr false [VStr "a"; VStr "b"; VStr "c"; VStr "e"]).
Proof.
  destruct (chains_decoded [VStr ""]).
  exists grow0, (heap0 [VStr ""]), chain_a, chain_b. eexists. split; [assumption|]. split; [assumption|].
  split; [vm_compute; reflexivity|]. split; vm_compute; reflexivity.
Qed.

Lemma c71_case : no_spare (heap0 []) /\ decoded_chain (heap0 []) chain_a /\ decoded_chain (heap0 []) chain_b /\
  exists m, fst (hchain_metadata grow0 chain_a (heap0 [])) = Ok (Some m) /\
  contacts_of (read_metadata (run_all grow0 [chain_b] (snd (hchain_metadata grow0 chain_a (heap0 [])))) m)
  = Some (VSlice TStr false (three ++ [VStr "d"])%list).
Proof.
  destruct (chains_decoded []). split; [apply full_no_spare|]. split; [assumption|]. split; [assumption|].
  eexists. split; vm_compute; reflexivity.
Qed.
