(** * The small utility packages: scope, prompt, flow, response_mode, pkce. *)
From Verif Require Import GoStr Codec Sha.

Definition space : ascii := " ".

(** ** scope/util.go *)

Definition OpenID := "openid".                       (* scope/util.go:9 *)
Definition OfflineAccess := "offline_access".        (* scope/util.go:11 *)

(** scope/util.go:14-16 [Split] *)
Definition scope_split (s : string) : list string := split_on space s.

Definition mem_str (x : string) (l : list string) : bool := existsb (fun y => y =s? x) l.

(** scope/util.go:18-30 [IncludeAll]; the map built from the list is only used
    for membership tests. Returns (false, first missing) or (true, ""). *)
Fixpoint first_missing (have want : list string) : bool * string :=
  match want with
  | [] => (true, "")
  | s :: r => if mem_str s have then first_missing have r else (false, s)
  end.
Definition scope_include_all (scopes : string) (targets : list string) : bool * string :=
  first_missing (scope_split scopes) targets.

(** scope/util.go:32-41 [Remove] *)
Definition scope_remove (scopes target : string) : string :=
  join " " (filter (fun s => negb (s =s? target)) (scope_split scopes)).

(** scope/util.go:43-51 [Include] *)
Definition scope_include (scopes target : string) : bool := mem_str target (scope_split scopes).

(** scope/util.go:57-61 [Sort] *)
Definition scope_sort (origin : string) : string := join " " (ssort (scope_split origin)).

(** scope/util.go:53-55 [Same] *)
Definition scope_same (a b : string) : bool := scope_sort a =s? scope_sort b.

(** scope/util.go:63-77 *)
Definition include_openid (s : string) : bool := scope_include s OpenID.
Definition include_offline (s : string) : bool := scope_include s OfflineAccess.
Definition remove_openid (s : string) : string := scope_remove s OpenID.
Definition remove_offline (s : string) : string := scope_remove s OfflineAccess.

(** ** prompt/util.go *)

Definition PNone := "none".
Definition PLogin := "login".
Definition PConsent := "consent".
Definition PSelectAccount := "select_account".

(** prompt/util.go:12-17.  The Go type is an int; [Other] is any other value. *)
Inductive no_consent_policy := ForceConsent | OmitConsentIfCan | NoConsentOther.
(** prompt/util.go:19-26 *)
Inductive none_policy :=
| NoneForbidden | NoneAllowWithLoginSession | NoneAllowIfLoginHintMatched
| NoneAllowIfIdTokenHintMatched | NoneOther.

(** prompt/util.go:28-30, 46-54 [Split], [Include] *)
Definition prompt_split (s : string) : list string := split_on space s.
Definition prompt_include (prompts target : string) : bool := mem_str target (prompt_split prompts).

(** prompt/util.go:56-78 [Validate]: a loop with two flags and an early exit. *)
Fixpoint prompt_loop (l : list string) (has_none has_other : bool) : bool :=
  match l with
  | [] => negb (has_none && has_other)
  | p :: r =>
      if p =s? PNone then prompt_loop r true has_other
      else if p =s? PLogin then prompt_loop r has_none true
      else if p =s? PConsent then prompt_loop r has_none true
      else if p =s? PSelectAccount then prompt_loop r has_none true
      else false
  end.
Definition prompt_validate (prompts : string) : bool := prompt_loop (prompt_split prompts) false false.

(** prompt/util.go:80-94 *)
Definition include_login (s : string) : bool := prompt_include s PLogin.
Definition include_consent (s : string) : bool := prompt_include s PConsent.

(** prompt/util.go:80-82 *)
Definition include_none (s : string) : bool := prompt_include s PNone.

(** ** flow/flow.go *)

(** flow/flow.go:10-17.  Simplification: the Go type is an int; values outside
    the four constants (which make String() panic) are not modelled. *)
Inductive flow_type := FAuthorizationCode | FImplicit | FHybrid | FDirectGrant.

Definition flow_eqb (a b : flow_type) : bool :=
  match a, b with
  | FAuthorizationCode, FAuthorizationCode | FImplicit, FImplicit
  | FHybrid, FHybrid | FDirectGrant, FDirectGrant => true
  | _, _ => false
  end.

(** flow/flow.go:19-32 [String] *)
Definition flow_name (f : flow_type) : string :=
  match f with
  | FAuthorizationCode => "authorization_code"
  | FImplicit => "implicit"
  | FHybrid => "hybrid"
  | FDirectGrant => "direct_grant"
  end.

(** flow/flow.go:57-61 *)
Record flow := Flow { f_type : flow_type; f_access : bool; f_id : bool }.

(** flow/flow.go:63-87 [JudgeByResponseType]; [None] is the error result. *)
Definition judge_response_type (rt : string) : option flow :=
  let sorted := join " " (ssort (split_on space rt)) in
  if sorted =s? "code" then Some (Flow FAuthorizationCode false false)
  else if sorted =s? "code id_token" then Some (Flow FHybrid false true)
  else if sorted =s? "code id_token token" then Some (Flow FHybrid true true)
  else if sorted =s? "code token" then Some (Flow FHybrid true false)
  else if sorted =s? "id_token" then Some (Flow FImplicit false true)
  else if sorted =s? "id_token token" then Some (Flow FImplicit true true)
  else if sorted =s? "token" then Some (Flow FImplicit true false)
  else None.

(** ** response_mode/util.go *)

Definition MQuery := "query".
Definition MFragment := "fragment".
Definition MFormPost := "form_post".

(** response_mode/util.go:9-11 *)
Definition rmode_validate (m : string) : bool :=
  (m =s? MQuery) || (m =s? MFragment) || (m =s? MFormPost).

(** response_mode/util.go:13-23 *)
Definition rmode_level (m : string) : Z :=
  if m =s? MQuery then 0 else if m =s? MFragment then 1 else if m =s? MFormPost then 2 else (-1).

(** response_mode/util.go:25-27 *)
Definition rmode_compare (target default : string) : bool :=
  (rmode_level default <=? rmode_level target)%Z.

(** ** pkce *)

Inductive pkce_method := PkcePlain | PkceS256.

(** pkce/verifier.go:21-30 [FindVerifierByMethod] *)
Definition find_verifier (m : string) : option pkce_method :=
  if m =s? "plain" then Some PkcePlain
  else if m =s? "S256" then Some PkceS256
  else None.

(** pkce/crypto.go:20-25 [EncodeBase64WithoutPadding]: encode, then take what
    precedes the first '='. *)
Definition b64url_nopad (s : string) : string :=
  match split_on "=" (b64_encode B64Url s) with
  | [] => ""                     (* unreachable: Split never returns [] *)
  | p :: _ => p
  end.

(** pkce/crypto.go:27-30 [S256Encode] *)
Definition s256_encode (s : string) : string := b64url_nopad (sha256 s).

(** pkce/verifier.go:32-38 [Verify] *)
Definition pkce_verify (m : pkce_method) (challenge verifier : string) : bool :=
  match m with
  | PkcePlain => challenge =s? verifier
  | PkceS256 => s256_encode verifier =s? challenge
  end.
