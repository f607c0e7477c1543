(** Policy entries with defaults for the theorems in PropertiesDefault.v. *)
From Verif Require Import Base GoVal Policy SpecPolicy DefaultChecks SpecDefault.
Local Open Scope string_scope.
Local Open Scope list_scope.

Definition arr_of (l : list string) : gval := VSlice TAny false (map VStr l).
Definition e_scopes (d b : list string) : entry := [("default", arr_of d); ("subset_of", arr_of b); ("superset_of", arr_of ["openid"]); ("essential", VBool true)].
Definition s_scopes (d b : list string) : sentry := SEntry None None (Some d) None (Some b) (Some ["openid"]) (Some true).
Definition e_method (d : string) : entry := [("default", VStr d); ("one_of", arr_of ["private_key_jwt"; "tls_client_auth"])].
Definition s_method (d : string) : sentry := SEntry None None (Some [d]) (Some ["private_key_jwt"; "tls_client_auth"]) None None None.

Lemma strs_arr l : strs (arr_of l) l.
Proof. right. exists TAny, false. auto. Qed.
Lemma denotes_scopes d b : denotes (e_scopes d b) (s_scopes d b).
Proof.
  split; cbn; try reflexivity; try (eexists; split; [reflexivity|apply strs_arr]).
  - repeat constructor; cbn; intros H; repeat (destruct H as [H|H]; [discriminate|]); exact H.
  - intros k H. tauto.
Qed.
Lemma denotes_method d : denotes (e_method d) (s_method d).
Proof.
  split; cbn; try reflexivity.
  - repeat constructor; cbn; intros H; repeat (destruct H as [H|H]; [discriminate|]); exact H.
  - intros k H. tauto.
  - eexists; split; [reflexivity|]. left. now exists d.
  - eexists; split; [reflexivity|]. apply (strs_arr ["private_key_jwt"; "tls_client_auth"]).
Qed.
Lemma list_scopes d b : list_operands (e_scopes d b).
Proof. intros k v [-> | ->] H; cbn in H; [discriminate|injection H as <-]. now right. Qed.

Lemma list_default_case :
  denotes (e_scopes ["openid"; "email"] ["email"; "openid"; "profile"]) (s_scopes ["openid"; "email"] ["email"; "openid"; "profile"]) /\
  list_operands (e_scopes ["openid"; "email"] ["email"; "openid"; "profile"]) /\
  verify_entry (e_scopes ["openid"; "email"] ["email"; "openid"; "profile"]) = Ok tt /\
  offers_default (s_scopes ["openid"; "email"] ["email"; "openid"; "profile"]) ["openid"; "email"] /\
  fitting_list (s_scopes ["openid"; "email"] ["email"; "openid"; "profile"]) ["openid"; "email"].
Proof.
  split; [apply denotes_scopes|]. split; [apply list_scopes|]. split; [vm_compute; reflexivity|]. split; [now split|].
  split; cbn; [reflexivity| |]; intros x H; cbn in *; tauto.
Qed.
Lemma text_default_case :
  denotes (e_method "private_key_jwt") (s_method "private_key_jwt") /\ lookup "default" (e_method "private_key_jwt") = Some (VStr "private_key_jwt") /\
  offers_default (s_method "private_key_jwt") ["private_key_jwt"] /\ fitting_text (s_method "private_key_jwt") "private_key_jwt".
Proof. split; [apply denotes_method|]. split; [reflexivity|]. split; [now split|]. now left. Qed.

Lemma default_cut : exists e s d c, denotes e s /\ list_operands e /\ verify_entry e = Ok tt /\ offers_default s d /\ ~ same_elements c d /\
  exists n, apply_to e (VSlice TStr true []) false = Ok (VSlice TStr n (map VStr c)).
Proof.
  exists (e_scopes ["openid"; "email"] ["openid"; "profile"]), (s_scopes ["openid"; "email"] ["openid"; "profile"]), ["openid"; "email"], ["openid"].
  split; [apply denotes_scopes|]. split; [apply list_scopes|]. split; [vm_compute; reflexivity|]. split; [now split|]. split.
  - intros H. destruct (proj2 (H "email")) as [E|[]]; [right; now left|discriminate E].
  - eexists. vm_compute. reflexivity.
Qed.
Lemma default_fails : exists e s d, denotes e s /\ verify_entry e = Ok tt /\ lookup "default" e = Some (VStr d) /\ d <> "" /\ offers_default s [d] /\
  se_essential s <> Some true /\ apply_to e (VStr "") false = Err.
Proof.
  exists (e_method "client_secret_basic"), (s_method "client_secret_basic"), "client_secret_basic".
  split; [apply denotes_method|]. split; [vm_compute; reflexivity|]. split; [reflexivity|]. split; [discriminate|]. split; [now split|].
  split; [discriminate|]. vm_compute. reflexivity.
Qed.
