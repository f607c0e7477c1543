(** Concrete executions of the trust mark refresher: counterexamples and cases that meet the
    hypotheses of the theorems in PropertiesRefresher.v. *)
From Verif Require Import Base GoVal Policy Schema Metadata Chain TrustMark Refresher SpecRefresher RefresherFacts.
Local Open Scope string_scope.
Local Open Scope list_scope.

(** Running a given schedule. *)
Fixpoint run_schedule (exp_of : string -> option time) (s : machine) (l : list choice) : option (machine * list event) :=
  match l with
  | [] => Some (s, [])
  | ch :: l' => match machine_step exp_of s ch with
                | None => None
                | Some (s1, evs) => match run_schedule exp_of s1 l' with
                                    | None => None
                                    | Some (s2, tr) => Some (s2, evs ++ tr)
                                    end
                end
  end.
Lemma exec_trans exp_of s tr s1 tr' s2 : execution exp_of s tr s1 -> execution exp_of s1 tr' s2 -> execution exp_of s (tr ++ tr') s2.
Proof.
  intros H H'. induction H' as [|tr' s1' ch s2 evs HE IH HS]; [now rewrite app_nil_r|].
  rewrite app_assoc. econstructor; eauto.
Qed.
Lemma run_execution exp_of l : forall s s' tr, run_schedule exp_of s l = Some (s', tr) -> execution exp_of s tr s'.
Proof.
  induction l as [|ch l IH]; intros s s' tr; cbn [run_schedule]; [intros [= <- <-]; constructor|].
  destruct (machine_step exp_of s ch) as [[s1 evs]|] eqn:E; [|discriminate].
  destruct (run_schedule exp_of s1 l) as [[s2 tr']|] eqn:E2; [|discriminate]. intros [= <- <-].
  eapply exec_trans; [|eapply IH; exact E2]. change evs with ([] ++ evs). econstructor; [constructor|exact E].
Qed.

Fixpoint wsb (tr : list event) : bool :=
  match tr with
  | [] => true
  | EJwt i _ :: r => (match r with [] => true | EExp i' _ :: _ => Nat.eqb i i' | _ => false end && wsb r)%bool
  | _ :: r => wsb r
  end.
Lemma wsb_sound tr : wsb tr = true -> whole_stores tr.
Proof.
  intros H a i j b E. subst tr. induction a as [|ev a IH].
  - cbn in H. apply andb_prop in H. destruct H as (H & _). destruct b as [|[] b]; auto; try discriminate.
    apply Nat.eqb_eq in H. subst. right. eauto.
  - apply IH. destruct ev; auto. cbn [app wsb] in H. apply andb_prop in H. tauto.
Qed.
Fixpoint wab (tr : list event) : bool :=
  match tr with
  | [] => true
  | EPass i _ :: r => (match r with [] => true | EAttempt i' _ :: _ => Nat.eqb i i' | _ => false end && wab r)%bool
  | _ :: r => wab r
  end.
Lemma wab_sound tr : wab tr = true -> whole_attempts tr.
Proof.
  intros H a i j b E. subst tr. induction a as [|ev a IH].
  - cbn in H. apply andb_prop in H. destruct H as (H & _). destruct b as [|[] b]; auto; try discriminate.
    apply Nat.eqb_eq in H. subst. right. eauto.
  - apply IH. destruct ev; auto. cbn [app wab] in H. apply andb_prop in H. tauto.
Qed.

Definition T0 : time := (1763337600 * second)%Z.
Definition exps (j : string) : option time :=
  if String.eqb j "old" then Some (T0 + 1000 * second)%Z
  else if String.eqb j "short" then Some (T0 + second)%Z
  else if String.eqb j "new" then Some (T0 + 90000 * second)%Z else None.
(** A mark to be obtained, and a mark that is held. *)
Definition cfg_new : config := Config "tm1" "https://iss.example" false "" true (10 * second) (3600 * second) zero_time zero_time.
Definition cfg_old : config := Config "tm1" "https://iss.example" false "old" true (10 * second) (3600 * second) (T0 + 1000 * second)%Z zero_time.

Lemma cfg_case : verify_config (fun _ => None) (Config "tm1" "https://iss.example" false "" false 0 0 zero_time zero_time) = Ok cfg_new /\
  verify_config (fun _ => Some (exps "old", "https://iss.example", Some "tm1")) (Config "" "" false "old" true 0 0 zero_time zero_time) = Ok cfg_old.
Proof. split; reflexivity. Qed.

Definition runs (i n : nat) : list choice := repeat (Run i None) n.

(** *** C45 *)
(** Call 0 is within the grace period and starts goroutine 1, which obtains a mark that is
    valid for one second. Two seconds later, call 2 sees this mark together with the
    expiration of the old one. *)
Definition sched45 : list choice :=
  [Call] ++ runs 0 5 ++ runs 1 2 ++ [Run 1 (Some "short"); Run 1 None; Tick (2 * second); Call] ++ runs 2 5.
Lemma c45_witness : exists exp_of c now tr s a i j t b e,
  execution exp_of (fresh c now) tr s /\ cf_refresh c = true /\ cf_exp c = kept_exp exp_of (cf_jwt c) /\
  (0 < cf_min c)%Z /\ tr = a ++ EReturn i j false t :: b /\
  (forall a1 k a2, a = a1 ++ EJwt k j :: a2 -> ~ In (ECall i) a1) /\
  exp_of j = Some e /\ (e < t)%Z.
Proof.
  destruct (run_schedule exps (fresh cfg_old T0) sched45) as [[s tr]|] eqn:E; [|vm_compute in E; discriminate E].
  exists exps, cfg_old, T0, tr, s, (removelast tr), 2, "short", (T0 + 2 * second)%Z, [], (T0 + second)%Z.
  split; [eapply run_execution; exact E|]. split; [reflexivity|]. split; [reflexivity|]. split; [reflexivity|].
  vm_compute in E. injection E as <- <-. split; [reflexivity|]. split; [|split; reflexivity].
  intros a1 k a2 EA H. cbn [removelast] in EA.
  repeat (destruct a1 as [|?ev a1]; [first [discriminate EA | repeat (destruct H as [H|H]; [discriminate H|]); destruct H]|];
          first [discriminate EA | injection EA as <- EA]).
Qed.

(** An undisturbed history: obtained, served, refreshed in the background, served again. *)
Definition sched_seq : list choice :=
  [Call] ++ runs 0 4 ++ [Run 0 (Some "old")] ++ runs 0 3 ++ [Tick (100 * second); Call] ++ runs 1 5 ++
  runs 2 2 ++ [Run 2 (Some "new")] ++ runs 2 2 ++ [Call] ++ runs 3 5.
Definition seq_trace : list event :=
  Eval vm_compute in match run_schedule exps (fresh cfg_new T0) sched_seq with Some (_, tr) => tr | None => [] end.
Definition seq_end : machine :=
  Eval vm_compute in match run_schedule exps (fresh cfg_new T0) sched_seq with Some (s, _) => s | None => fresh cfg_new T0 end.
Lemma seq_exec : exists s, execution exps (fresh cfg_new T0) seq_trace s.
Proof. exists seq_end. eapply (run_execution _ sched_seq). vm_compute. reflexivity. Qed.
Lemma c45_case :
  (exists s, execution exps (fresh cfg_new T0) seq_trace s) /\ cf_refresh cfg_new = true /\
  cf_exp cfg_new = kept_exp exps (cf_jwt cfg_new) /\ whole_stores seq_trace /\ whole_attempts seq_trace /\ prompt seq_trace /\
  filter (fun ev => match ev with EReturn _ _ _ _ => true | _ => false end) seq_trace =
    [EReturn 0 "old" false T0; EReturn 1 "old" false (T0 + 100 * second)%Z; EReturn 3 "new" false (T0 + 100 * second)%Z].
Proof.
  split; [apply seq_exec|]. split; [reflexivity|]. split; [reflexivity|].
  split; [apply wsb_sound; vm_compute; reflexivity|]. split; [apply wab_sound; vm_compute; reflexivity|]. split.
  - intros i t H. unfold seq_trace in *.
    repeat (destruct H as [H|H]; [first [discriminate H | injection H as <- <-; cbn [In]; auto 40]|]). destruct H.
  - vm_compute. reflexivity.
Qed.

(** *** C46 *)
Definition sched46 : list choice :=
  [Call; Call] ++ runs 0 2 ++ runs 1 2 ++ [Run 0 None; Run 1 None; Run 0 None; Run 1 None; Run 0 None; Run 1 None].
Lemma c46_witness : exists exp_of c now tr s a i b j t d,
  execution exp_of (fresh c now) tr s /\ prompt tr /\ tr = a ++ EAsk i t :: b ++ EAsk j t :: d.
Proof.
  destruct (run_schedule exps (fresh cfg_new T0) sched46) as [[s tr]|] eqn:E; [|vm_compute in E; discriminate E].
  exists exps, cfg_new, T0, tr, s, (removelast (removelast tr)), 0, [], 1, T0, [].
  split; [eapply run_execution; exact E|]. vm_compute in E. injection E as <- <-. split; [|reflexivity].
  intros i t H. repeat (destruct H as [H|H]; [first [discriminate H | injection H as <- <-; vm_compute; auto 40]|]). destruct H.
Qed.
(** A slow request of the first attempt is sent just before that of the second. *)
Definition sched46b : list choice :=
  [Call] ++ runs 0 4 ++ [Tick (60 * second); Call] ++ runs 1 4 ++ [Run 0 None; Run 1 None].
Lemma c46_slow : exists exp_of c now tr s a i b j t d,
  execution exp_of (fresh c now) tr s /\ whole_attempts tr /\ tr = a ++ EAsk i t :: b ++ EAsk j t :: d.
Proof.
  destruct (run_schedule exps (fresh cfg_new T0) sched46b) as [[s tr]|] eqn:E; [|vm_compute in E; discriminate E].
  exists exps, cfg_new, T0, tr, s, (removelast (removelast tr)), 0, [], 1, (T0 + 60 * second)%Z, [].
  split; [eapply run_execution; exact E|]. vm_compute in E. injection E as <- <-. split; [|reflexivity].
  apply wab_sound. reflexivity.
Qed.

(** *** C47 *)
Definition sched47 : list choice :=
  [Call] ++ runs 0 4 ++ [Run 0 (Some "forever")] ++ runs 0 3 ++ [Tick second; Call] ++ runs 1 5.
Lemma c47_witness : exists exp_of c now tr s a b1 b2 i j t,
  execution exp_of (fresh c now) tr s /\ cf_refresh c = true /\ cf_exp c = kept_exp exp_of (cf_jwt c) /\ whole_stores tr /\
  tr = a ++ b1 ++ EReturn i j true t :: b2 /\ In (ECall i) b1 /\ held c a = j /\ stored b1 = [] /\ j <> "" /\ exp_of j = None.
Proof.
  destruct (run_schedule exps (fresh cfg_new T0) sched47) as [[s tr]|] eqn:E; [|vm_compute in E; discriminate E].
  exists exps, cfg_new, T0, tr, s, (firstn 9 tr), (skipn 9 (removelast tr)), [], 1, "forever", (T0 + second)%Z.
  split; [eapply run_execution; exact E|]. vm_compute in E. injection E as <- <-.
  split; [reflexivity|]. split; [reflexivity|]. split; [apply wsb_sound; reflexivity|]. split; [reflexivity|].
  split; [cbn; auto|]. repeat split. discriminate.
Qed.
Lemma c47_case : exists a b1 b2 j t, seq_trace = a ++ b1 ++ EReturn 3 j false t :: b2 /\ In (ECall 3) b1 /\
  forall x, In x (held cfg_new a :: stored b1) -> x <> "" /\ (cf_min cfg_new < until (kept_exp exps x) t)%Z.
Proof.
  exists (firstn 9 seq_trace), (skipn 9 (removelast seq_trace)), [], "new", (T0 + 100 * second)%Z.
  split; [vm_compute; reflexivity|]. split; [vm_compute; auto 40|].
  intros x H. vm_compute in H. destruct H as [<-|[<-|[]]]; (split; [discriminate|vm_compute; reflexivity]).
Qed.

(** *** C68 *)
Lemma c68_witness : exists id hints md ks lifetime now marks,
  (0 < lifetime)%Z /\ let s := config_payload (new_entity id hints md ks lifetime) now marks in (st_exp s < st_iat s)%Z.
Proof. exists "e", [], None, None, 9223372037%Z, T0, []. split; reflexivity. Qed.
Lemma c68_case : (3600 <= 9223372036)%Z /\
  st_marks (config_payload (new_entity "e" ["h"] None (Some ["k"]) 3600) T0 [("tm1", Ok "j1"); ("tm2", Err); ("tm3", Ok "j3")]) =
    [("tm1", "j1"); ("tm3", "j3")].
Proof. split; [lia|reflexivity]. Qed.
