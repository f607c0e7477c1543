(** Trust mark refreshing (trustmark_refresher.go) and entity configurations
    (federation.go:42-58,80-109). *)
From Verif Require Import Base GoVal Policy Schema Metadata Chain TrustMark.
Local Open Scope string_scope.

(** EntityConfigurationTrustMarkConfig: trustmark_refresher.go:17-31. The own endpoint, the
    own issuer and the subject are not modelled. Durations in nanoseconds. *)
Record config := Config {
  cf_type : string; cf_issuer : string; cf_self : bool; cf_jwt : string; cf_refresh : bool;
  cf_min : Z; cf_grace : Z; cf_exp : time; cf_tried : time }.

Definition second : Z := 1000000000%Z.

(** EntityConfigurationTrustMarkConfig.Verify: trustmark_refresher.go:35-79. [parse] is
    jwt.Parse: the exp claim, the issuer and the trust_mark_type claim (None: missing). *)
Definition verify_config (parse : string -> option (option time * string * option string)) (c : config) : res config :=
  let mn := if Z.eqb (cf_min c) 0 then (10 * second)%Z else cf_min c in
  let gr := if Z.eqb (cf_grace c) 0 then (3600 * second)%Z else cf_grace c in
  if negb (String.eqb (cf_jwt c) "") then
    match parse (cf_jwt c) with
    | None => Err
    | Some (exp, iss, None) => Err
    | Some (exp, iss, Some typ) =>
        Ok (Config typ iss (cf_self c) (cf_jwt c) (cf_refresh c) mn gr
                   (match exp with Some e => e | None => zero_time end) (cf_tried c))
    end
  else
    let c' := Config (cf_type c) (cf_issuer c) (cf_self c) (cf_jwt c) true mn gr (cf_exp c) (cf_tried c) in
    if cf_self c then if String.eqb (cf_type c) "" then Err else Ok c'
    else if (String.eqb (cf_type c) "" || String.eqb (cf_issuer c) "")%bool then Err else Ok c'.

(** time.Until, time.Since: differences of times saturate at the bounds of int64.
    Used at trustmark_refresher.go:83-96. *)
Definition sat (d : Z) : Z := Z.max (- 2 ^ 63) (Z.min (2 ^ 63 - 1) d).
Definition until (t now : time) : Z := sat (t - now).
Definition since (t now : time) : Z := sat (now - t).

(** Where a goroutine is. TrustMarkJWT: trustmark_refresher.go:83-95, refresh: :98-154.
    Each access to the shared object is one step; [bg]: started by "go c.refresh()". *)
Inductive pc :=
| PStart                      (* :84 *)
| PHeld                       (* c.JWT != "" :87 *)
| PUntil                      (* Until(c.expiration) > MinLifetime :87 *)
| PGrace                      (* Until(c.expiration) < RefreshGracePeriod :88-90 *)
| PReturn (err : bool)        (* return c.JWT :85,91,94 *)
| RCheck (bg : bool)          (* :99-102 *)
| RTried (bg : bool)          (* c.lastTried = now :103 *)
| RAsk (bg : bool)            (* self-issuance or request :104-143 *)
| RJwt (bg : bool) (j : string)   (* c.JWT = ... :109,146 *)
| RExp (bg : bool) (j : string)   (* c.expiration = ... :110-116,147-151 *)
| PDone.

(** What goroutine [i] did, at which time. Used at trustmark_refresher.go:83-154. *)
Inductive event :=
| ECall (i : nat)                                 (* TrustMarkJWT was called *)
| EStep (i : nat)                                 (* a step without effect on others *)
| EUntil (i : nat) (e : time) (t : time)          (* compared the expiration e with the clock *)
| EPass (i : nat) (t : time)                      (* passed the rate limit *)
| EAttempt (i : nat) (t : time)                   (* recorded an attempt *)
| EAsk (i : nat) (t : time)                       (* asked for a new mark *)
| EJwt (i : nat) (j : string)                     (* stored a new mark *)
| EExp (i : nat) (e : time)                       (* stored its expiration *)
| EReturn (i : nat) (j : string) (err : bool) (t : time). (* TrustMarkJWT returned *)

(** The shared object, the clock and all goroutines. Used at trustmark_refresher.go:17-32. *)
Record machine := Machine { m_cfg : config; m_now : time; m_threads : list pc }.

(** The scheduler's choice: time passes, a new call, or goroutine [i] runs; [ans] is the
    answer if it asks for a mark (None: any error). Used at trustmark_refresher.go:83-154. *)
Inductive choice := Tick (d : Z) | Call | Run (i : nat) (ans : option string).

Fixpoint update {A} (i : nat) (x : A) (l : list A) : list A :=
  match l, i with
  | [], _ => []
  | _ :: l', O => x :: l'
  | y :: l', S i' => y :: update i' x l'
  end.

Definition set_jwt (c : config) (j : string) : config :=
  Config (cf_type c) (cf_issuer c) (cf_self c) j (cf_refresh c) (cf_min c) (cf_grace c) (cf_exp c) (cf_tried c).
Definition set_exp (c : config) (e : time) : config :=
  Config (cf_type c) (cf_issuer c) (cf_self c) (cf_jwt c) (cf_refresh c) (cf_min c) (cf_grace c) e (cf_tried c).
Definition set_tried (c : config) (t : time) : config :=
  Config (cf_type c) (cf_issuer c) (cf_self c) (cf_jwt c) (cf_refresh c) (cf_min c) (cf_grace c) (cf_exp c) t.

(** The end of refresh: a background goroutine ends, otherwise TrustMarkJWT returns.
    Used at trustmark_refresher.go:83-154. *)
Definition refreshed (bg err : bool) : pc := if bg then PDone else PReturn err.

Definition minute : Z := (60 * second)%Z.

(** One step of goroutine [i] at [p]: the object and the goroutine afterwards, a goroutine
    it starts, and what it did. [exp_of j] is the exp claim of the mark [j] (a self-issued
    mark: its ExpiresAt, before rounding). Used at trustmark_refresher.go:83-154. *)
Definition thread_step (exp_of : string -> option time) (c : config) (now : time) (i : nat) (p : pc)
           (ans : option string) : option (config * pc * list pc * event) :=
  match p with
  | PStart => Some (c, if cf_refresh c then PHeld else PReturn false, [], EStep i)
  | PHeld => Some (c, if String.eqb (cf_jwt c) "" then RCheck false else PUntil, [], EStep i)
  | PUntil => Some (c, if Z.ltb (cf_min c) (until (cf_exp c) now) then PGrace else RCheck false, [], EUntil i (cf_exp c) now)
  | PGrace => Some (c, PReturn false, if Z.ltb (until (cf_exp c) now) (cf_grace c) then [RCheck true] else [], EStep i)
  | PReturn err => Some (c, PDone, [], EReturn i (cf_jwt c) err now)
  | RCheck bg => if Z.ltb (since (cf_tried c) now) minute then Some (c, refreshed bg true, [], EStep i)
                 else Some (c, RTried bg, [], EPass i now)
  | RTried bg => Some (set_tried c now, RAsk bg, [], EAttempt i now)
  | RAsk bg => Some (c, match ans with Some j => RJwt bg j | None => refreshed bg true end, [], EAsk i now)
  | RJwt bg j => Some (set_jwt c j, RExp bg j, [], EJwt i j)
  | RExp bg j => let e := match exp_of j with Some e => e | None => zero_time end in
                 Some (set_exp c e, refreshed bg false, [], EExp i e)
  | PDone => None
  end.

Definition machine_step (exp_of : string -> option time) (s : machine) (ch : choice) : option (machine * list event) :=
  match ch with
  | Tick d => if Z.ltb d 0 then None else Some (Machine (m_cfg s) (m_now s + d)%Z (m_threads s), [])
  | Call => Some (Machine (m_cfg s) (m_now s) (m_threads s ++ [PStart])%list, [ECall (List.length (m_threads s))])
  | Run i ans =>
      match nth_error (m_threads s) i with
      | None => None
      | Some p =>
          match thread_step exp_of (m_cfg s) (m_now s) i p ans with
          | None => None
          | Some (c, p', new, ev) => Some (Machine c (m_now s) (update i p' (m_threads s) ++ new)%list, [ev])
          end
      end
  end.

(** ** Entity configurations *)

(** FederationEntity: federation.go:21-32; JSON documents and keys are opaque. *)
Record entity := Entity {
  fe_id : string; fe_metadata : option metadata; fe_hints : list string; fe_lifetime : Z; fe_jwks : jwks;
  fe_issuers : smap (list string); fe_owners : smap (string * jwks) }.

(** NewFederationEntity: federation.go:42-58; defaultEntityConfigurationLifetime is 86400
    (entitystatement.go:20). *)
Definition new_entity (id : string) (hints : list string) (md : option metadata) (ks : jwks) (lifetime : Z) : entity :=
  Entity id md hints (if Z.leb lifetime 0 then 86400%Z else lifetime) ks [] [].

(** int64 arithmetic wraps around. Used at trustmark_refresher.go:83-96. *)
Definition wrap64 (x : Z) : Z := ((x + 2 ^ 63) mod 2 ^ 64 - 2 ^ 63)%Z.

(** EntityConfigurationPayload: federation.go:80-109. [marks] lists, for each configured
    mark, its type and what TrustMarkJWT returned. The JWT, policies, constraints and crit of
    the statement are absent. time.Time.Add does not overflow for the times considered. *)
Fixpoint obtained_marks (marks : list (string * res string)) : list (string * string) :=
  match marks with
  | [] => []
  | (typ, Ok j) :: r => (typ, j) :: obtained_marks r
  | _ :: r => obtained_marks r
  end.
Definition config_payload (f : entity) (now : time) (marks : list (string * res string)) : stmt :=
  Stmt "" (fe_id f) (fe_id f) now (now + wrap64 (second * wrap64 (fe_lifetime f)))%Z (fe_jwks f) (fe_hints f)
       (fe_metadata f) None None [] [] (obtained_marks marks) (fe_issuers f) (fe_owners f).
