(** Concrete cases for the theorems on attributes with a single value. *)
From Verif Require Import Base GoVal Policy Schema Metadata Chain SpecChain SpecSingle SingleFacts SingleLaws.
From Verif Require Import WitnessPolicy.
Local Open Scope string_scope.

Definition AM := "token_endpoint_auth_method".
Definition rp_of (doc : smap gval) : emeta := match decode_meta rp_schema doc with Ok m => m | _ => EMeta [] [] end.
Definition rp_method : emeta := Eval vm_compute in rp_of [(AM, VStr "private_key_jwt"); ("client_name", VStr "RP")].
Definition rp_silent : emeta := Eval vm_compute in rp_of [("client_name", VStr "RP")].
Definition arr (l : list scalar) : gval := VSlice TAny false (map as_any l).

Definition e_low : entry := [("one_of", arr [Text "private_key_jwt"; Text "tls_client_auth"; Flag true]); ("essential", VBool true)].
Definition e_top : entry := [("default", VStr "private_key_jwt"); ("one_of", arr [Text "none"; Text "private_key_jwt"]); ("essential", VBool false)].
Definition s_low : single := Single None None (Some [Text "private_key_jwt"; Text "tls_client_auth"; Flag true]) (Some true).
Definition s_top : single := Single None (Some (Text "private_key_jwt")) (Some [Text "none"; Text "private_key_jwt"]) (Some false).
Definition r_method : frow := FRow "TokenEndpointAuthMethod" AM true TStr.

Definition chain_of (m : emeta) (lo hi : entry) : chain :=
  [with_rp (bare "rp" "rp") m; with_policy (bare "ia" "rp") [(AM, lo)] []; with_policy (bare "ta" "ia") [(AM, hi); ("client_name", [("essential", VBool true)])] [];
   bare "ta" "ta"].

Ltac entry_states := constructor; cbn;
  [repeat (constructor; [intros K; simpl in K; repeat destruct K as [K|K]; try discriminate K; contradiction|]); constructor
  |intros k K; repeat destruct K as [<-|K]; auto 10; contradiction
  |reflexivity|reflexivity|try (eexists; reflexivity); reflexivity|reflexivity].

Lemma low_states : states e_low s_low.
Proof. entry_states. Qed.
Lemma top_states : states e_top s_top.
Proof. entry_states. Qed.

Lemma says_one k p e s : NoDup (keys p) -> lookup k p = Some e -> states e s -> says k (Some p) (Some s).
Proof. intros N E S. split; auto. simpl. now rewrite E. Qed.

Lemma chain_says m : Forall2 (says AM) (policies_of mp_rp (chain_of m e_low e_top)) [Some s_low; Some s_top].
Proof.
  cbn [policies_of flat_map chain_of with_rp with_policy bare st_policy app mp_rp].
  constructor; [|constructor; [|constructor]].
  - apply (says_one _ _ e_low); [repeat constructor; simpl; tauto|reflexivity|apply low_states].
  - apply (says_one _ _ e_top); [|reflexivity|apply top_states].
    repeat constructor; simpl; try tauto. intros [K|[]]; discriminate K.
Qed.

Lemma single_case : exists md em', chain_metadata (chain_of rp_method e_low e_top) = Ok (Some md) /\
  Forall2 (says AM) (policies_of mp_rp (chain_of rp_method e_low e_top)) [Some s_low; Some s_top] /\
  md_rp (leaf_metadata (chain_of rp_method e_low e_top)) = Some rp_method /\
  stated rp_method AM r_method (Some (Text "private_key_jwt")) /\
  md_rp md = Some em' /\ em_tag AM em' = Some (VStr "private_key_jwt").
Proof.
  do 2 eexists. split; [vm_compute; reflexivity|]. split; [apply chain_says|]. split; [reflexivity|].
  split; [split; reflexivity|]. split; reflexivity.
Qed.

Lemma single_default_case : exists md em', chain_metadata (chain_of rp_silent e_low e_top) = Ok (Some md) /\
  Forall2 (says AM) (policies_of mp_rp (chain_of rp_silent e_low e_top)) [Some s_low; Some s_top] /\
  stated rp_silent AM r_method None /\
  md_rp md = Some em' /\ em_tag AM em' = Some (VStr "private_key_jwt").
Proof.
  do 2 eexists. split; [vm_compute; reflexivity|]. split; [apply chain_says|].
  split; [split; reflexivity|]. split; reflexivity.
Qed.

(** ** The hypotheses of the exact statement *)

Definition ps0 : list gpolicy := [Some [(AM, e_low)]; None; Some [(AM, e_top)]].
Definition ss0 : list (option single) := [Some s_low; None; Some s_top].

Lemma nodup_check (l : list string) : nodup string_dec l = l -> NoDup l.
Proof. intros <-. apply NoDup_nodup. Qed.

Lemma tags_nodup : NoDup (map (fun fv : frow * gval => fr_tag (fst fv)) (em_fields rp_method)).
Proof. apply nodup_check. vm_compute. reflexivity. Qed.

Lemma ps0_says : Forall2 (says AM) ps0 ss0.
Proof.
  constructor; [|constructor; [|constructor; [|constructor]]].
  - apply (says_one _ _ e_low); [repeat constructor; simpl; tauto|reflexivity|apply low_states].
  - split; simpl; auto. constructor.
  - apply (says_one _ _ e_top); [repeat constructor; simpl; tauto|reflexivity|apply top_states].
Qed.

Lemma ps0_only : only AM ps0.
Proof. intros p [<-|[<-|[<-|[]]]] k'; simpl; [intros [<-|[]]|intros []|intros [<-|[]]]; reflexivity. Qed.

Lemma ss0_coherent : Forall coherent ss0.
Proof.
  repeat constructor; apply coherent_proper; simpl; auto; (split; [discriminate|discriminate]).
Qed.

Lemma ss0_facts : (forall v, ~ fixes ss0 v) /\ (forall d, offers ss0 d <-> d = Text "private_key_jwt").
Proof.
  split.
  - intros v (s & [E|[E|[E|[]]]] & H); try discriminate; injection E as <-; discriminate.
  - intros d. split.
    + intros (s & [E|[E|[E|[]]]] & H); try discriminate; injection E as <-; try discriminate. simpl in H. congruence.
    + intros ->. exists s_top. split; [right; right; now left|reflexivity].
Qed.

Lemma single_exact_case :
  Forall2 (says AM) ps0 ss0 /\ only AM ps0 /\ Forall coherent ss0 /\ no_blanks ss0 (Some (Text "private_key_jwt")) /\
  NoDup (map (fun fv : frow * gval => fr_tag (fst fv)) (em_fields rp_method)) /\
  stated rp_method AM r_method (Some (Text "private_key_jwt")) /\
  agreed ss0 /\ outcome ss0 (Some (Text "private_key_jwt")) (Some (Text "private_key_jwt")).
Proof.
  destruct ss0_facts as [NF OF].
  split; [apply ps0_says|]. split; [apply ps0_only|]. split; [apply ss0_coherent|]. split.
  { intros x B. split; [destruct B as [-> | ->]; discriminate|]. split; [apply NF|]. rewrite OF. destruct B as [-> | ->]; discriminate. }
  split; [apply tags_nodup|]. split; [split; reflexivity|]. split.
  - constructor.
    + intros v w H. elim (NF _ H).
    + intros d e Hd He. apply OF in Hd, He. congruence.
    + intros d H. elim (NF _ H).
    + intros _. exists (Text "private_key_jwt"). intros l (s & [E|[E|[E|[]]]] & H); try discriminate; injection E as <-; injection H as <-; simpl; auto.
  - constructor.
    + intros x H. elim (NF _ H).
    + intros x _ E. exact E.
    + intros d [H|[H _]]; [elim (NF _ H)|discriminate].
    + intros [H|[H _]]; [elim (NF _ H)|discriminate].
    + intros l x (s & [E|[E|[E|[]]]] & H) Ex; try discriminate; injection E as <-; injection H as <-; injection Ex as <-; simpl; auto.
    + discriminate.
Qed.

(** An attribute that is stated as false counts as missing. *)
Definition RT := "require_auth_time".
Definition rp_false : emeta := Eval vm_compute in rp_of [(RT, VBool false)].
Definition r_flag : frow := FRow "RequireAuthTime" RT true TBool.
Definition s_need : single := Single None None None (Some true).
Definition e_need : entry := [("essential", VBool true)].

Lemma blank_refuted : exists k ps ss em r cur, Forall2 (says k) ps ss /\ only k ps /\ Forall coherent ss /\
  NoDup (map (fun fv : frow * gval => fr_tag (fst fv)) (em_fields em)) /\ stated em k r cur /\ fr_ty r = TBool /\
  agreed ss /\ outcome ss cur cur /\ exists q, combine_policies ps = Ok q /\ apply_one (Some em) q = Err.
Proof.
  exists RT, [Some [(RT, e_need)]], [Some s_need], rp_false, r_flag, (Some (Flag false)).
  assert (NF : forall v, ~ fixes [Some s_need] v) by (intros v (s & [E|[]] & H); injection E as <-; discriminate).
  assert (C : coherent (Some s_need)) by (apply coherent_proper; split; discriminate).
  split. { constructor; [|constructor]. apply (says_one _ _ e_need); [repeat constructor; simpl; tauto|reflexivity|entry_states]. }
  split. { intros p [<-|[]] k'; simpl; intros [<-|[]]; reflexivity. }
  split. { constructor; auto. }
  split. { apply nodup_check. vm_compute. reflexivity. }
  split; [split; reflexivity|]. split; [reflexivity|]. split; [exact C|]. split.
  - constructor; auto.
    + intros x H. elim (NF _ H).
    + intros d [H|[H _]]; [elim (NF _ H)|discriminate].
    + intros [H|[H _]]; [elim (NF _ H)|discriminate].
    + intros l x (s & [E|[]] & H); injection E as <-; discriminate.
    + discriminate.
  - eexists. split; [vm_compute; reflexivity|]. vm_compute. reflexivity.
Qed.
