(** The host of ordinary URLs. *)
From Verif Require Import Base GoVal Policy Schema Metadata Chain Resolver TrustMark Json Leaf SpecLeaf LeafFacts Web SpecWeb WebFacts.
From Coq Require Import Lia.
Local Open Scope nat_scope.
Local Open Scope string_scope.

Lemma sapp_assoc (a b c : string) : (a ++ b) ++ c = a ++ (b ++ c).
Proof. induction a as [|x a IH]; [reflexivity|]. cbn [append]. now rewrite IH. Qed.

Lemma only_bytes set s P : only set s -> all_bytes P set = true -> all_bytes P s = true.
Proof.
  intros O H. induction s as [|c s IH]; [reflexivity|]. destruct O as [(a & b & E) O]. cbn [all_bytes].
  rewrite (IH O), Bool.andb_true_r. rewrite E, all_bytes_app in H. apply andb_prop in H as [_ H]. cbn [all_bytes] in H.
  now apply andb_prop in H as [H _].
Qed.

Lemma only_free set s d : only set s -> free d set = true -> free d s = true.
Proof.
  intros O H. induction s as [|c s IH]; [reflexivity|]. destruct O as [(a & b & E) O]. cbn [free].
  rewrite (IH O), Bool.andb_true_r. rewrite E, free_app in H. apply andb_prop in H as [_ H]. cbn [free] in H.
  now apply andb_prop in H as [H _].
Qed.

Lemma free_escapes s : free "%" s = true -> escapes_ok s = true.
Proof.
  induction s as [|c s IH]; [reflexivity|]. cbn [free escapes_ok]. intros H. apply andb_prop in H as [H1 H2].
  rewrite Ascii.eqb_sym. destruct (Ascii.eqb "%" c); [discriminate|]. auto.
Qed.

Lemma cut_last_free d s : free d s = true -> cut_last d s = None.
Proof.
  induction s as [|c s IH]; [reflexivity|]. cbn [free cut_last]. intros H. apply andb_prop in H as [H1 H2].
  rewrite (IH H2). now destruct (Ascii.eqb d c).
Qed.

Lemma cut_last_app d a b : free d b = true -> cut_last d (a ++ String d b) = Some (a, b).
Proof.
  intros F. induction a as [|c a IH]; cbn [append cut_last].
  - rewrite (cut_last_free _ _ F), Ascii.eqb_refl. reflexivity.
  - now rewrite IH.
Qed.

Lemma cut_none d s : free d s = true -> cut d s = (s, "").
Proof.
  induction s as [|c s IH]; [reflexivity|]. cbn [free cut]. intros H. apply andb_prop in H as [H1 H2].
  destruct (Ascii.eqb d c); [discriminate|]. now rewrite (IH H2).
Qed.

(** Cutting off an optional last part *)
Lemma cut_part d s t : free d s = true -> (t = "" \/ exists r, t = String d r) ->
  cut d (s ++ t) = (s, match t with String _ r => r | EmptyString => "" end).
Proof.
  intros F [-> | (r & ->)].
  - rewrite app_nil. now apply cut_none.
  - now apply cut_app.
Qed.

Lemma to_slash_part s t : free "/" s = true -> (t = "" \/ exists r, t = String "/" r) -> to_slash (s ++ t) = (s, t).
Proof.
  intros F H. induction s as [|c s IH]; cbn [append].
  - destruct H as [-> | (r & ->)]; reflexivity.
  - cbn [free] in F. apply andb_prop in F as [F1 F2]. cbn [to_slash]. rewrite Ascii.eqb_sym.
    destruct (Ascii.eqb "/" c); [discriminate|]. now rewrite (IH F2).
Qed.

Lemma get_scheme_part s r : all_bytes (fun c => letter c || digit c || mem_byte c "+-.")%bool s = true ->
  get_scheme false (s ++ String ":" r) = SFound r.
Proof.
  induction s as [|c s IH]; [reflexivity|]. cbn [all_bytes append get_scheme]. intros H. apply andb_prop in H as [H1 H2].
  destruct (letter c); [auto|]. cbn [orb] in H1. rewrite H1. auto.
Qed.

Lemma unescape_plain s : all_bytes (fun c => host_byte c && negb (Ascii.eqb c "%"))%bool s = true -> unescape_host s = Some s.
Proof.
  induction s as [|c s IH]; [reflexivity|]. cbn [all_bytes unescape_host]. intros H. apply andb_prop in H as [H1 H2].
  apply andb_prop in H1 as [H0 H1]. destruct (Ascii.eqb c "%"); [discriminate|]. rewrite H0, (IH H2). reflexivity.
Qed.

Lemma strip_brackets_plain s : free "[" s = true -> strip_brackets s = s.
Proof.
  destruct s as [|c s]; [reflexivity|]. cbn [free]. intros H. apply andb_prop in H as [H _].
  destruct c as [[] [] [] [] [] [] [] []]; try reflexivity. discriminate.
Qed.

Lemma parse_host_plain s : free "[" s = true ->
  parse_host s = match cut_last ":" s with
                 | None => unescape_host s
                 | Some (_, port) => if all_bytes digit port then unescape_host s else None
                 end.
Proof.
  destruct s as [|c s]; [reflexivity|]. cbn [free]. intros H. apply andb_prop in H as [H _].
  destruct c as [[] [] [] [] [] [] [] []]; try reflexivity. discriminate.
Qed.

Theorem ordinary_host scheme user host port path query fragment :
  ordinary_url scheme user host port path query fragment ->
  hostname (url_of scheme user host port path query fragment) = Some host /\
  url_host (url_of scheme user host port path query fragment) = Some (host ++ port).
Proof.
  intros [(c & sch & -> & Hc & Hs) HU [HN HH] HP HA HQ HF].
  assert (OF : forall set s, only set s -> forall d, free d set = true -> free d s = true) by (intros; eapply only_free; eauto).
  assert (OB : forall set s, only set s -> forall P, all_bytes P set = true -> all_bytes P s = true) by (intros; eapply only_bytes; eauto).
  set (nc := fun c => (Nat.leb 32 (nat_of_ascii c) && negb (Nat.eqb (nat_of_ascii c) 127))%bool).
  (* facts about each part *)
  assert (U : free "#" user = true /\ free "?" user = true /\ free "/" user = true /\ all_bytes nc user = true).
  { destruct HU as [-> | (u & -> & O)]; [repeat split|].
    rewrite !free_app, all_bytes_app. rewrite !(OF _ _ O), (OB _ _ O); repeat split; reflexivity. }
  assert (H : free "#" host = true /\ free "?" host = true /\ free "/" host = true /\ free "@" host = true /\
              free ":" host = true /\ free "[" host = true /\ all_bytes nc host = true /\
              all_bytes (fun c => host_byte c && negb (Ascii.eqb c "%"))%bool host = true).
  { rewrite !(OF _ _ HH), !(OB _ _ HH); repeat split; reflexivity. }
  assert (P : free "#" port = true /\ free "?" port = true /\ free "/" port = true /\ free "@" port = true /\
              free "[" port = true /\ all_bytes nc port = true /\
              all_bytes (fun c => host_byte c && negb (Ascii.eqb c "%"))%bool port = true).
  { destruct HP as [-> | (p & -> & O)]; [repeat split|]. cbn [append free all_bytes].
    rewrite !(OF _ _ O), !(OB _ _ O); repeat split; reflexivity. }
  assert (A : free "#" path = true /\ free "?" path = true /\ escapes_ok path = true /\ all_bytes nc path = true /\
              (path = "" \/ exists r, path = String "/" r)).
  { destruct HA as [-> | (p & -> & O)]; [repeat split; auto|]. split; [|split; [|split; [|split]]].
    - cbn [append free]. rewrite (OF _ _ O); reflexivity.
    - cbn [append free]. rewrite (OF _ _ O); reflexivity.
    - apply free_escapes. cbn [append free]. rewrite (OF _ _ O); reflexivity.
    - cbn [append all_bytes]. rewrite (OB _ _ O); reflexivity.
    - right. exists p. reflexivity. }
  assert (Q : free "#" query = true /\ all_bytes nc query = true /\ (query = "" \/ exists r, query = String "?" r)).
  { destruct HQ as [-> | (p & -> & O)]; [repeat split; auto|]. split; [|split].
    - cbn [append free]. rewrite (OF _ _ O); reflexivity.
    - cbn [append all_bytes]. rewrite (OB _ _ O); reflexivity.
    - right. exists p. reflexivity. }
  assert (F : (fragment = "" \/ exists r, fragment = String "#" r) /\
              escapes_ok (match fragment with String _ r => r | EmptyString => "" end) = true).
  { destruct HF as [-> | (p & -> & O)]; [repeat split; auto|]. split; [right; exists p; reflexivity|].
    cbn [append]. apply free_escapes. rewrite (OF _ _ O); reflexivity. }
  destruct U as (U1 & U2 & U3 & U4). destruct H as (H1 & H2 & H3 & H4 & H5 & H6 & H7 & H8).
  destruct P as (P1 & P2 & P3 & P4 & P5 & P6 & P7). destruct A as (A1 & A2 & A3 & A4 & A5).
  destruct Q as (Q1 & Q2 & Q3). destruct F as (F1 & F2).
  assert (S1 : free "#" (String c sch) = true).
  { cbn [free]. pose proof (OF _ _ Hc "#"%char eq_refl) as E. cbn [free] in E. rewrite Bool.andb_true_r in E. rewrite E. apply (OF _ _ Hs); reflexivity. }
  assert (S2 : all_bytes nc (String c sch) = true).
  { cbn [all_bytes]. pose proof (OB _ _ Hc nc eq_refl) as E. cbn [all_bytes] in E. rewrite Bool.andb_true_r in E. rewrite E. apply (OB _ _ Hs); reflexivity. }
  assert (S3 : letter c = true).
  { pose proof (OB _ _ Hc letter eq_refl) as E. cbn [all_bytes] in E. now rewrite Bool.andb_true_r in E. }
  assert (S4 : all_bytes (fun c => letter c || digit c || mem_byte c "+-.")%bool sch = true) by (apply (OB _ _ Hs); reflexivity).
  assert (UH : url_host (url_of (String c sch) user host port path query fragment) = Some (host ++ port)).
  { unfold url_host, url_of.
    set (body := String c sch ++ "://" ++ user ++ host ++ port ++ path ++ query).
    replace (String c sch ++ "://" ++ user ++ host ++ port ++ path ++ query ++ fragment) with (body ++ fragment).
    2: { unfold body. rewrite !sapp_assoc. reflexivity. }
    rewrite cut_part; auto.
    2: { unfold body. rewrite !free_app, S1, U1, H1, P1, A1, Q1. reflexivity. }
    assert (NC : no_control body = true).
    { unfold no_control. fold nc. unfold body. rewrite !all_bytes_app, S2, U4, H7, P6, A4, Q2. reflexivity. }
    rewrite NC. cbn [negb]. unfold body. cbn [append get_scheme]. rewrite S3.
    rewrite get_scheme_part by exact S4. rewrite F2.
    unfold parse_rest.
    assert (CQ : fst (cut "?" (String "/" (String "/" (user ++ host ++ port ++ path ++ query)))) = String "/" (String "/" (user ++ host ++ port ++ path))).
    { replace (String "/" (String "/" (user ++ host ++ port ++ path ++ query))) with ((String "/" (String "/" (user ++ host ++ port ++ path))) ++ query).
      2: { cbn [append]. rewrite !sapp_assoc. reflexivity. }
      rewrite cut_part; auto. cbn [free]. rewrite !free_app, U2, H2, P2, A2. reflexivity. }
    rewrite CQ. cbn [has_prefix Ascii.eqb Bool.eqb andb negb].
    replace (user ++ host ++ port ++ path) with ((user ++ host ++ port) ++ path) by (rewrite !sapp_assoc; reflexivity).
    rewrite to_slash_part; auto.
    2: { rewrite !free_app, U3, H3, P3. reflexivity. }
    cbn [orb]. rewrite A3.
    assert (PH : parse_host (host ++ port) = Some (host ++ port)).
    { rewrite parse_host_plain by (rewrite free_app, H6, P5; reflexivity).
      assert (UE : unescape_host (host ++ port) = Some (host ++ port)).
      { apply unescape_plain. rewrite all_bytes_app, H8, P7. reflexivity. }
      destruct HP as [-> | (p & -> & O)].
      - rewrite app_nil in *. rewrite cut_last_free by exact H5. exact UE.
      - cbn [append]. rewrite cut_last_app by (apply (OF _ _ O); reflexivity).
        rewrite (OB _ _ O digit eq_refl). exact UE. }
    unfold parse_authority. destruct HU as [-> | (u & -> & O)].
    - cbn [append]. rewrite cut_last_free by (rewrite free_app, H4, P4; reflexivity). now rewrite PH.
    - replace ((u ++ "@") ++ host ++ port) with (u ++ String "@" (host ++ port)) by (rewrite sapp_assoc; reflexivity).
      rewrite cut_last_app by (rewrite free_app, H4, P4; reflexivity). rewrite PH.
      rewrite (OB _ _ O user_byte eq_refl). rewrite free_escapes by (apply (OF _ _ O); reflexivity). reflexivity. }
  split; [|exact UH]. unfold hostname. rewrite UH. cbn [option_map]. f_equal. unfold strip_port.
  destruct HP as [-> | (p & -> & O)].
  - rewrite app_nil, cut_last_free by exact H5. now apply strip_brackets_plain.
  - cbn [append]. rewrite cut_last_app by (apply (OF _ _ O); reflexivity). rewrite (OB _ _ O digit eq_refl). now apply strip_brackets_plain.
Qed.

(** ** No separator in a host *)
Definition name_byte (c : ascii) : bool := host_byte c || Ascii.eqb c "%".

Lemma hex_small c n : hex c = Some n -> n < 16.
Proof.
  unfold hex, digit, between. intros H.
  destruct (Nat.leb 48 (nat_of_ascii c) && Nat.leb (nat_of_ascii c) 57)%bool eqn:E1.
  { apply andb_prop in E1 as [A B]. apply Nat.leb_le in A, B. injection H as <-. lia. }
  destruct (Nat.leb 97 (nat_of_ascii c) && Nat.leb (nat_of_ascii c) 102)%bool eqn:E2.
  { apply andb_prop in E2 as [A B]. apply Nat.leb_le in A, B. injection H as <-. lia. }
  destruct (Nat.leb 65 (nat_of_ascii c) && Nat.leb (nat_of_ascii c) 70)%bool eqn:E3; [|discriminate].
  apply andb_prop in E3 as [A B]. apply Nat.leb_le in A, B. injection H as <-. lia.
Qed.

Lemma unescape_bytes s : forall h, unescape_host s = Some h -> all_bytes name_byte h = true.
Proof.
  remember (String.length s) as n eqn:L. revert s L.
  induction n as [n IH] using lt_wf_ind. intros s L h. destruct s as [|c s]; cbn [unescape_host].
  - intros [= <-]. reflexivity.
  - destruct (Ascii.eqb c "%").
    + destruct s as [|a [|b s]]; try discriminate.
      destruct (hex a) as [x|] eqn:EX; [|discriminate]. destruct (hex b) as [y|] eqn:EY; [|discriminate].
      destruct (_ || _)%bool eqn:EC; [|discriminate].
      destruct (unescape_host s) as [r|] eqn:EU; [|discriminate]. cbn [option_map]. intros [= <-]. cbn [all_bytes].
      rewrite (IH (String.length s)) with (s := s); auto; [|subst n; cbn; lia]. rewrite Bool.andb_true_r.
      apply hex_small in EX, EY. apply Bool.orb_true_iff in EC as [EC|EC].
      * apply Nat.leb_le in EC.
        assert (LL : Nat.leb 128 (nat_of_ascii (ascii_of_nat (16 * x + y))) = true)
          by (rewrite nat_ascii_embedding by lia; apply Nat.leb_le; lia).
        cbn [Nat.mul] in *. unfold name_byte, host_byte. rewrite LL. reflexivity.
      * apply andb_prop in EC as [E1 E2]. apply Nat.eqb_eq in E1, E2. subst. reflexivity.
    + destruct (host_byte c) eqn:EH; [|discriminate].
      destruct (unescape_host s) as [r|] eqn:EU; [|discriminate]. cbn [option_map]. intros [= <-]. cbn [all_bytes].
      unfold name_byte at 1. rewrite EH. cbn [orb andb]. apply (IH (String.length s)) with (s := s); auto. subst n. cbn. lia.
Qed.

Lemma parse_host_bytes s h : parse_host s = Some h -> all_bytes name_byte h = true.
Proof.
  assert (G : match cut_last ":" s with
              | None => unescape_host s
              | Some (_, port) => if all_bytes digit port then unescape_host s else None
              end = Some h -> all_bytes name_byte h = true).
  { destruct (cut_last ":" s) as [[a p]|]; [destruct (all_bytes digit p); [|discriminate]|]; apply unescape_bytes. }
  unfold parse_host. destruct s as [|[[] [] [] [] [] [] [] []] s]; try exact G.
  destruct (cut_last "]" _) as [[a p]|]; [|discriminate]. destruct (_ && _)%bool; [|discriminate]. apply unescape_bytes.
Qed.

Lemma parse_authority_bytes s h : parse_authority s = Some h -> all_bytes name_byte h = true.
Proof.
  unfold parse_authority. destruct (cut_last "@" s) as [[u a]|]; [|apply parse_host_bytes].
  destruct (parse_host a) as [x|] eqn:E; [|discriminate]. destruct (_ && _)%bool; [|discriminate]. intros [= <-].
  now apply parse_host_bytes in E.
Qed.

Lemma parse_rest_bytes b s h : parse_rest b s = Some h -> all_bytes name_byte h = true.
Proof.
  unfold parse_rest. set (r := fst (cut "?" s)). clearbody r. clear s.
  destruct (_ && _)%bool; [intros [= <-]; reflexivity|].
  destruct (_ && _)%bool; [discriminate|].
  assert (N : (if escapes_ok r then Some "" else None) = Some h -> all_bytes name_byte h = true).
  { destruct (escapes_ok r); [|discriminate]. intros [= <-]. reflexivity. }
  destruct r as [|c1 [|c2 r]]; try exact N.
  destruct (_ && _)%bool; [|exact N]. destruct (to_slash r) as [a p].
  destruct (parse_authority a) as [x|] eqn:E; [|discriminate]. destruct (escapes_ok p); [|discriminate]. intros [= <-].
  now apply parse_authority_bytes in E.
Qed.

Lemma cut_last_bytes P d s a b : cut_last d s = Some (a, b) -> all_bytes P s = true -> all_bytes P a = true.
Proof.
  revert a b. induction s as [|c s IH]; [discriminate|]. intros a b. cbn [cut_last all_bytes]. intros H O. apply andb_prop in O as [O1 O2].
  destruct (cut_last d s) as [[a' b']|].
  - injection H as <- <-. cbn [all_bytes]. now rewrite O1, (IH _ _ eq_refl O2).
  - destruct (Ascii.eqb d c); [|discriminate]. injection H as <- <-. reflexivity.
Qed.

Lemma strip_port_bytes P h : all_bytes P h = true -> all_bytes P (strip_port h) = true.
Proof.
  assert (B : forall s, all_bytes P s = true -> all_bytes P (strip_brackets s) = true).
  { intros s H. unfold strip_brackets. destruct s as [|[[] [] [] [] [] [] [] []] s]; try exact H.
    destruct (cut_last "]" s) as [[a [|x b]]|] eqn:E; try exact H. cbn [all_bytes] in H. apply andb_prop in H as [_ H].
    eapply cut_last_bytes; eauto. }
  intros H. unfold strip_port. apply B. destruct (cut_last ":" h) as [[a p]|] eqn:E; [|exact H].
  destruct (all_bytes digit p); [|exact H]. eapply cut_last_bytes; eauto.
Qed.

Theorem host_no_separator id h : hostname id = Some h ->
  forall a c b, h = a ++ String c b -> ~ separates c /\ 32 < nat_of_ascii c.
Proof.
  unfold hostname. destruct (url_host id) as [x|] eqn:E; [|discriminate]. cbn [option_map]. intros [= <-].
  assert (O : all_bytes name_byte x = true).
  { unfold url_host in E. destruct (cut "#" id) as [u f]. destruct (negb (no_control u)); [discriminate|].
    destruct (get_scheme true u) as [| |r]; try discriminate.
    - destruct (parse_rest false u) as [y|] eqn:Y; [|discriminate]. destruct (escapes_ok f); [|discriminate]. injection E as <-. now apply parse_rest_bytes in Y.
    - destruct (parse_rest true r) as [y|] eqn:Y; [|discriminate]. destruct (escapes_ok f); [|discriminate]. injection E as <-. now apply parse_rest_bytes in Y. }
  apply strip_port_bytes in O. intros a c b Eq. rewrite Eq, all_bytes_app in O. apply andb_prop in O as [_ O].
  cbn [all_bytes] in O. apply andb_prop in O as [O _]. split.
  - unfold separates. intros [-> | [-> | [-> | [-> | [-> | ->]]]]]; discriminate.
  - assert (M : forall d, (Nat.leb (nat_of_ascii d) 32 && name_byte d)%bool = false).
    { intros d. destruct d as [[] [] [] [] [] [] [] []]; vm_compute; reflexivity. }
    specialize (M c). rewrite O, Bool.andb_true_r in M. apply Nat.leb_gt in M. exact M.
Qed.
