(** The host of URLs with an IPv6 address, and of those whose authority is malformed. *)
From Verif Require Import Base GoVal Policy Schema Metadata Chain Resolver TrustMark Json Leaf SpecLeaf LeafFacts Web SpecWeb WebFacts UrlFacts SpecBracket.
From Coq Require Import Lia.
Local Open Scope nat_scope.
Local Open Scope string_scope.

Lemma url_host_parts scheme user path query fragment hp :
  ordinary_rest scheme user path query fragment ->
  free "#" hp = true -> free "?" hp = true -> free "/" hp = true -> free "@" hp = true -> no_control hp = true ->
  url_host (scheme ++ "://" ++ user ++ hp ++ path ++ query ++ fragment) = parse_host hp.
Proof.
  intros [(c & sch & -> & Hc & Hs) HU _ _ HA HQ HF] H1 H2 H3 H4 H7.
  assert (OF : forall set s, only set s -> forall d, free d set = true -> free d s = true) by (intros; eapply only_free; eauto).
  assert (OB : forall set s, only set s -> forall P, all_bytes P set = true -> all_bytes P s = true) by (intros; eapply only_bytes; eauto).
  unfold no_control in H7.
  set (nc := fun c => (Nat.leb 32 (nat_of_ascii c) && negb (Nat.eqb (nat_of_ascii c) 127))%bool) in *.
  assert (U : free "#" user = true /\ free "?" user = true /\ free "/" user = true /\ all_bytes nc user = true).
  { destruct HU as [-> | (u & -> & O)]; [repeat split|].
    rewrite !free_app, all_bytes_app. rewrite !(OF _ _ O), (OB _ _ O); repeat split; reflexivity. }
  assert (A : free "#" path = true /\ free "?" path = true /\ escapes_ok path = true /\ all_bytes nc path = true /\
              (path = "" \/ exists r, path = String "/" r)).
  { destruct HA as [-> | (p & -> & O)]; [repeat split; auto|]. split; [|split; [|split; [|split]]].
    - cbn [append free]. rewrite (OF _ _ O); reflexivity.
    - cbn [append free]. rewrite (OF _ _ O); reflexivity.
    - apply free_escapes. cbn [append free]. rewrite (OF _ _ O); reflexivity.
    - cbn [append all_bytes]. rewrite (OB _ _ O); reflexivity.
    - right. exists p. reflexivity. }
  assert (Q : free "#" query = true /\ all_bytes nc query = true /\ (query = "" \/ exists r, query = String "?" r)).
  { destruct HQ as [-> | (p & -> & O)]; [repeat split; auto|]. split; [|split].
    - cbn [append free]. rewrite (OF _ _ O); reflexivity.
    - cbn [append all_bytes]. rewrite (OB _ _ O); reflexivity.
    - right. exists p. reflexivity. }
  assert (F : (fragment = "" \/ exists r, fragment = String "#" r) /\
              escapes_ok (match fragment with String _ r => r | EmptyString => "" end) = true).
  { destruct HF as [-> | (p & -> & O)]; [repeat split; auto|]. split; [right; exists p; reflexivity|].
    cbn [append]. apply free_escapes. rewrite (OF _ _ O); reflexivity. }
  destruct U as (U1 & U2 & U3 & U4). destruct A as (A1 & A2 & A3 & A4 & A5).
  destruct Q as (Q1 & Q2 & Q3). destruct F as (F1 & F2).
  assert (S1 : free "#" (String c sch) = true).
  { cbn [free]. pose proof (OF _ _ Hc "#"%char eq_refl) as E. cbn [free] in E. rewrite Bool.andb_true_r in E. rewrite E. apply (OF _ _ Hs); reflexivity. }
  assert (S2 : all_bytes nc (String c sch) = true).
  { cbn [all_bytes]. pose proof (OB _ _ Hc nc eq_refl) as E. cbn [all_bytes] in E. rewrite Bool.andb_true_r in E. rewrite E. apply (OB _ _ Hs); reflexivity. }
  assert (S3 : letter c = true).
  { pose proof (OB _ _ Hc letter eq_refl) as E. cbn [all_bytes] in E. now rewrite Bool.andb_true_r in E. }
  assert (S4 : all_bytes (fun c => letter c || digit c || mem_byte c "+-.")%bool sch = true) by (apply (OB _ _ Hs); reflexivity).
  unfold url_host.
  set (body := String c sch ++ "://" ++ user ++ hp ++ path ++ query).
  replace (String c sch ++ "://" ++ user ++ hp ++ path ++ query ++ fragment) with (body ++ fragment).
  2: { unfold body. rewrite !sapp_assoc. reflexivity. }
  rewrite cut_part; auto.
  2: { unfold body. rewrite !free_app, S1, U1, H1, A1, Q1. reflexivity. }
  assert (NC : no_control body = true).
  { unfold no_control. fold nc. unfold body. rewrite !all_bytes_app, S2, U4, H7, A4, Q2. reflexivity. }
  rewrite NC. cbn [negb]. unfold body. cbn [append get_scheme]. rewrite S3.
  rewrite get_scheme_part by exact S4. rewrite F2.
  unfold parse_rest.
  assert (CQ : fst (cut "?" (String "/" (String "/" (user ++ hp ++ path ++ query)))) = String "/" (String "/" (user ++ hp ++ path))).
  { replace (String "/" (String "/" (user ++ hp ++ path ++ query))) with ((String "/" (String "/" (user ++ hp ++ path))) ++ query).
    2: { cbn [append]. rewrite !sapp_assoc. reflexivity. }
    rewrite cut_part; auto. cbn [free]. rewrite !free_app, U2, H2, A2. reflexivity. }
  rewrite CQ. cbn [has_prefix Ascii.eqb Bool.eqb andb negb].
  replace (user ++ hp ++ path) with ((user ++ hp) ++ path) by (rewrite !sapp_assoc; reflexivity).
  rewrite to_slash_part; auto.
  2: { rewrite !free_app, U3, H3. reflexivity. }
  cbn [orb]. rewrite A3.
  assert (PA : parse_authority (user ++ hp) = parse_host hp).
  { unfold parse_authority. destruct HU as [-> | (u & -> & O)].
    - cbn [append]. rewrite cut_last_free by exact H4. reflexivity.
    - replace ((u ++ "@") ++ hp) with (u ++ String "@" hp) by (rewrite sapp_assoc; reflexivity).
      rewrite cut_last_app by exact H4.
      rewrite (OB _ _ O user_byte eq_refl). rewrite free_escapes by (apply (OF _ _ O); reflexivity).
      destruct (parse_host hp); reflexivity. }
  rewrite PA. destruct (parse_host hp); reflexivity.
Qed.

(** Within brackets *)
Lemma parse_host_bracket addr port : free "]" port = true ->
  parse_host ("[" ++ addr ++ "]" ++ port) =
    if (optional_port port && negb (mem_byte "%" ("[" ++ addr)))%bool then unescape_host ("[" ++ addr ++ "]" ++ port) else None.
Proof.
  intros F. cbn [append]. unfold parse_host.
  change (String "[" (addr ++ String "]" port)) with ((String "[" addr) ++ String "]" port).
  now rewrite cut_last_app by exact F.
Qed.
Lemma free_mem d s : free d s = true -> mem_byte d s = false.
Proof.
  induction s as [|c s IH]; [reflexivity|]. cbn [free mem_byte]. intros H. apply andb_prop in H as [H1 H2].
  destruct (Ascii.eqb d c); [discriminate|]. now apply IH.
Qed.

Theorem bracket_host scheme user addr port path query fragment :
  ordinary_rest scheme user path query fragment -> address_literal addr port ->
  hostname (url_of scheme user ("[" ++ addr ++ "]") port path query fragment) = Some addr /\
  url_host (url_of scheme user ("[" ++ addr ++ "]") port path query fragment) = Some ("[" ++ addr ++ "]" ++ port).
Proof.
  intros R [HA HP].
  assert (AF : forall d, free d (decimals ++ "abcdefABCDEF:.") = true -> free d addr = true) by (intros; eapply only_free; eauto).
  assert (AB : forall P, all_bytes P (decimals ++ "abcdefABCDEF:.") = true -> all_bytes P addr = true) by (intros; eapply only_bytes; eauto).
  assert (PF : forall d, free d (decimals ++ ":") = true -> free d port = true).
  { intros d D. rewrite free_app in D. apply andb_prop in D as [D1 D2]. destruct HP as [-> | (p & -> & O)]; [reflexivity|].
    rewrite free_app, D2. cbn [andb]. eapply only_free; eauto. }
  assert (PB : forall P, all_bytes P (decimals ++ ":") = true -> all_bytes P port = true).
  { intros P D. rewrite all_bytes_app in D. apply andb_prop in D as [D1 D2]. destruct HP as [-> | (p & -> & O)]; [reflexivity|].
    rewrite all_bytes_app, D2. cbn [andb]. eapply only_bytes; eauto. }
  assert (OP : optional_port port = true).
  { destruct HP as [-> | (p & -> & O)]; [reflexivity|]. cbn. eapply only_bytes; eauto. }
  assert (UH : url_host (url_of scheme user ("[" ++ addr ++ "]") port path query fragment) = Some ("[" ++ addr ++ "]" ++ port)).
  { unfold url_of.
    replace (scheme ++ "://" ++ user ++ ("[" ++ addr ++ "]") ++ port ++ path ++ query ++ fragment)
      with (scheme ++ "://" ++ user ++ ("[" ++ addr ++ "]" ++ port) ++ path ++ query ++ fragment) by (rewrite !sapp_assoc; reflexivity).
    rewrite url_host_parts by (auto; unfold no_control; rewrite ?free_app, ?all_bytes_app, ?AF, ?PF, ?AB, ?PB; reflexivity).
    rewrite parse_host_bracket by (apply PF; reflexivity). rewrite OP.
    rewrite free_mem by (rewrite free_app, AF; reflexivity). cbn [negb andb].
    apply unescape_plain. rewrite !all_bytes_app, AB, PB by reflexivity. reflexivity. }
  split; [|exact UH]. unfold hostname. rewrite UH. cbn [option_map]. f_equal. unfold strip_port.
  destruct HP as [-> | (p & -> & O)].
  - rewrite app_nil.
    assert (D : match cut_last ":" ("[" ++ addr ++ "]") with
                | Some (a, port) => if all_bytes digit port then a else "[" ++ addr ++ "]"
                | None => "[" ++ addr ++ "]"
                end = "[" ++ addr ++ "]").
    { assert (G : forall s, match cut_last ":" (s ++ "]") with
                | Some (a, port) => all_bytes digit port = false
                | None => True end).
      { intros s. induction s as [|c s IH]; [exact I|]. cbn [append cut_last].
        destruct (cut_last ":" (s ++ "]")) as [[a b]|]; [exact IH|]. destruct (Ascii.eqb ":" c); [|exact I].
        rewrite all_bytes_app. cbn. apply Bool.andb_false_r. }
      specialize (G ("[" ++ addr)). rewrite sapp_assoc in G. destruct (cut_last ":" ("[" ++ addr ++ "]")) as [[a b]|]; [now rewrite G|reflexivity]. }
    rewrite D. cbn [append strip_brackets]. now rewrite cut_last_app.
  - replace ("[" ++ addr ++ "]" ++ ":" ++ p) with (("[" ++ addr ++ "]") ++ String ":" p) by (rewrite !sapp_assoc; reflexivity).
    rewrite cut_last_app by (eapply only_free; eauto; reflexivity).
    rewrite (only_bytes _ _ digit O eq_refl). cbn [append strip_brackets]. now rewrite cut_last_app.
Qed.

(** Not a port *)
Lemma digit_only s : all_bytes digit s = true -> only decimals s.
Proof.
  induction s as [|c s IH]; [exact (fun _ => I)|]. cbn [all_bytes only]. intros H. apply andb_prop in H as [H1 H2].
  split; [|auto]. clear -H1.
  assert (G : mem_byte c decimals = true) by (destruct c as [[] [] [] [] [] [] [] []]; try discriminate H1; reflexivity).
  assert (J : forall s, mem_byte c s = true -> exists a b, s = a ++ String c b).
  { induction s as [|d s IH]; [discriminate|]. cbn [mem_byte]. intros M. apply Bool.orb_prop in M as [M|M].
    - apply Ascii.eqb_eq in M as ->. now exists "", s.
    - destruct (IH M) as (a & b & ->). now exists (String d a), b. }
  now apply J.
Qed.
Theorem bad_port scheme user host port path query fragment :
  ordinary_rest scheme user path query fragment -> only (alphabet ++ decimals ++ "-._~!$&'()*+,;=") host -> not_decimal port ->
  hostname (url_of scheme user host (":" ++ port) path query fragment) = None /\
  (forall addr, address_literal addr "" ->
    hostname (url_of scheme user ("[" ++ addr ++ "]") port path query fragment) = None /\
    hostname (url_of scheme user ("[" ++ addr ++ "]") (":" ++ port) path query fragment) = None).
Proof.
  intros R HH [HP ND].
  assert (HF : forall d, free d (alphabet ++ decimals ++ "-._~!$&'()*+,;=") = true -> free d host = true) by (intros; eapply only_free; eauto).
  assert (HB : forall P, all_bytes P (alphabet ++ decimals ++ "-._~!$&'()*+,;=") = true -> all_bytes P host = true) by (intros; eapply only_bytes; eauto).
  assert (PF : forall d, free d (alphabet ++ decimals ++ "-._~!$&'()*+,;=") = true -> free d port = true) by (intros; eapply only_free; eauto).
  assert (PB : forall P, all_bytes P (alphabet ++ decimals ++ "-._~!$&'()*+,;=") = true -> all_bytes P port = true) by (intros; eapply only_bytes; eauto).
  assert (NP : all_bytes digit port = false).
  { destruct (all_bytes digit port) eqn:E; [|reflexivity]. contradiction ND. now apply digit_only. }
  unfold url_of, hostname. split.
  - replace (scheme ++ "://" ++ user ++ host ++ (":" ++ port) ++ path ++ query ++ fragment)
      with (scheme ++ "://" ++ user ++ (host ++ ":" ++ port) ++ path ++ query ++ fragment) by (rewrite !sapp_assoc; reflexivity).
    rewrite url_host_parts by (auto; unfold no_control; rewrite ?free_app, ?all_bytes_app, ?HF, ?PF, ?HB, ?PB; reflexivity).
    rewrite parse_host_plain by (rewrite !free_app, HF, PF; reflexivity).
    cbn [append]. rewrite cut_last_app by (apply PF; reflexivity). now rewrite NP.
  - intros addr [HA _].
    assert (AF : forall d, free d (decimals ++ "abcdefABCDEF:.") = true -> free d addr = true) by (intros; eapply only_free; eauto).
    assert (AB : forall P, all_bytes P (decimals ++ "abcdefABCDEF:.") = true -> all_bytes P addr = true) by (intros; eapply only_bytes; eauto).
    assert (Z : forall q, free "#" q = true -> free "?" q = true -> free "/" q = true -> free "@" q = true -> free "]" q = true ->
      no_control q = true -> optional_port q = false ->
      url_host (scheme ++ "://" ++ user ++ ("[" ++ addr ++ "]") ++ q ++ path ++ query ++ fragment) = None).
    { intros q Q1 Q2 Q3 Q4 Q5 Q6 Q7.
      replace (scheme ++ "://" ++ user ++ ("[" ++ addr ++ "]") ++ q ++ path ++ query ++ fragment)
        with (scheme ++ "://" ++ user ++ ("[" ++ addr ++ "]" ++ q) ++ path ++ query ++ fragment) by (rewrite !sapp_assoc; reflexivity).
      unfold no_control in Q6.
      rewrite url_host_parts by (auto; unfold no_control; rewrite ?free_app, ?all_bytes_app, ?AF, ?Q1, ?Q2, ?Q3, ?Q4, ?AB, ?Q6; reflexivity).
      rewrite parse_host_bracket by exact Q5. now rewrite Q7. }
    split; rewrite Z; auto; unfold no_control; rewrite ?free_app, ?all_bytes_app, ?PF, ?PB; try reflexivity.
    + destruct port as [|c p]; [discriminate NP|]. cbn [optional_port].
      assert (C : free ":" (String c p) = true) by (apply PF; reflexivity). cbn [free] in C. apply andb_prop in C as [C _].
      rewrite Ascii.eqb_sym. destruct (Ascii.eqb ":" c); [discriminate C|reflexivity].
Qed.

Lemma only_set set s : all_bytes (fun c => mem_byte c set) s = true -> only set s.
Proof.
  induction s as [|c s IH]; [exact (fun _ => I)|]. cbn [all_bytes only]. intros H. apply andb_prop in H as [H1 H2].
  split; [|auto]. clear -H1. induction set as [|d set IH]; [discriminate|]. cbn [mem_byte] in H1. apply Bool.orb_prop in H1 as [M|M].
  - apply Ascii.eqb_eq in M as ->. now exists "", set.
  - destruct (IH M) as (a & b & ->). now exists (String d a), b.
Qed.
Lemma not_decimal_case : not_decimal "44x".
Proof.
  split; [now apply only_set|].
  intros (_ & _ & (a & b & X) & _). apply (f_equal (free "x")) in X. rewrite free_app in X. cbn [free] in X.
  rewrite Ascii.eqb_refl, Bool.andb_false_r in X. discriminate X.
Qed.
