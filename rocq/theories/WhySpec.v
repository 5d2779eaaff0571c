(** * What is wrong with an authorization request, in the order of reporting.

    No code is modelled here.  Each constructor is one fault, with the error and the
    description it deserves. *)
From Verif Require Import GoStr Codec Sha Utils Core AuthzResponse AuthzEndpoint Spec TokenSpec AuthzSpec FlowSpec.

(** The error [typ] with the description [desc] is sent to [uri] (empty ones are left out). *)
Definition reported (mode uri state typ desc : string) (tr : list event) : Prop :=
  exists params, answered mode uri params tr /\
    holds params [("error", Some typ); ("error_description", given desc); ("state", given state)].

(** ** Parameters.  The number is the place in the order in which faults are looked for. *)
Inductive param_fault (pol : policy) (r : request) (c : client) : nat -> string -> string -> Prop :=
| q_no_type : form_value r "response_type" = "" ->
    param_fault pol r c 0 "invalid_request" "missing 'response_type'"
| q_type : form_value r "response_type" <> "" -> (forall f, ~ asks_for r f) ->
    param_fault pol r c 1 "invalid_request" ("invalid 'response_type:" ++ form_value r "response_type" ++ "'")
| q_mode f : asks_for r f -> p_ignore_bad_mode pol = false ->
    form_value r "response_mode" <> "" -> mode_rank (form_value r "response_mode") = None ->
    param_fault pol r c 2 "invalid_request" ("unknown 'response_mode': '" ++ form_value r "response_mode" ++ "'")
| q_level f : asks_for r f -> p_ignore_bad_mode pol = false -> p_level_check pol = true ->
    mode_rank (form_value r "response_mode") <> None -> mode_rank (flow_default pol f) <> None ->
    ~ at_least (form_value r "response_mode") (flow_default pol f) ->
    param_fault pol r c 3 "invalid_request"
      ("'response_mode:" ++ form_value r "response_mode" ++ "' isn't allowed for 'response_type:" ++ form_value r "response_type" ++ "'")
| q_flow f : asks_for r f -> c_can_flow c (f_type f) = false ->
    param_fault pol r c 4 "unauthorized_client" ""
| q_display : form_value r "display" <> "" -> ~ In (form_value r "display") ["page"; "popup"; "wap"; "touch"] ->
    param_fault pol r c 5 "invalid_request" ("unknown 'display': '" ++ form_value r "display" ++ "'")
| q_age : form_value r "max_age" <> "" -> atoi (form_value r "max_age") = None ->
    param_fault pol r c 6 "invalid_request" ("'max_age' should be integer: '" ++ form_value r "max_age" ++ "'")
| q_age_low z : atoi (form_value r "max_age") = Some z -> (z < p_min_max_age pol)%Z ->
    param_fault pol r c 7 "invalid_request" ("'max_age' should be greater than " ++ itoa (sub64 (p_min_max_age pol) 1))
| q_age_high z : atoi (form_value r "max_age") = Some z -> (p_max_max_age pol < z)%Z ->
    param_fault pol r c 8 "invalid_request" ("'max_age' should be less than " ++ itoa (add64 (p_max_max_age pol) 1))
| q_prompt : ~ prompt_ok (form_value r "prompt") ->
    param_fault pol r c 9 "invalid_request" ("invalid 'prompt': '" ++ form_value r "prompt" ++ "'")
| q_offline f l : asks_for r f -> f_type f <> FImplicit -> p_allow_empty_scope pol = false ->
    has_word (form_value r "scope") "offline_access" -> has_word (form_value r "prompt") "consent" ->
    words_of (form_value r "scope") l ->
    In (filter (fun w => negb (String.eqb w "openid" || String.eqb w "offline_access")) l) [[]; [""]] ->
    param_fault pol r c 10 "invalid_request"
      "when you request 'offline_access' scope, you should set other scope except for 'openid'"
| q_no_scope f : asks_for r f -> p_allow_empty_scope pol = false ->
    offline_rule f (form_value r "prompt") (form_value r "scope") "" ->
    param_fault pol r c 11 "invalid_request" "missing 'scope'"
| q_openid f s : asks_for r f -> f_id f = true ->
    offline_rule f (form_value r "prompt") (form_value r "scope") s -> ~ has_word s "openid" ->
    param_fault pol r c 12 "invalid_request"
      ("'response_type:" ++ form_value r "response_type" ++ "' requires id_token, but 'scope' doesn't include 'openid'")
| q_scope f s : asks_for r f -> offline_rule f (form_value r "prompt") (form_value r "scope") s ->
    c_can_scope c (f_type f) s = false ->
    param_fault pol r c 13 "invalid_scope" ""
| q_no_nonce f : asks_for r f -> f_id f = true -> f_type f <> FAuthorizationCode -> form_value r "nonce" = "" ->
    param_fault pol r c 14 "invalid_request" ("'response_type:" ++ form_value r "response_type" ++ "' requires 'nonce' parameter")
| q_nonce : ~ within (form_value r "nonce") (p_max_nonce pol) ->
    param_fault pol r c 15 "invalid_request" ("length of 'nonce' should be less than " ++ itoa (add64 (p_max_nonce pol) 1))
| q_verifier : ~ within (form_value r "code_verifier") (p_max_verifier pol) ->
    param_fault pol r c 16 "invalid_request"
      ("length of 'code_verifier' should be less than " ++ itoa (add64 (p_max_verifier pol) 1)).

(** The first fault of the request, and its place. *)
Definition first_fault_at (pol : policy) (r : request) (c : client) (n : nat) (typ desc : string) : Prop :=
  param_fault pol r c n typ desc /\ forall m t d, param_fault pol r c m t d -> (n <= m)%nat.
Definition first_fault (pol : policy) (r : request) (c : client) (typ desc : string) : Prop :=
  exists n, first_fault_at pol r c n typ desc.

(** The response mode in which a fault at place [n] is reported: as asked for while the flow is
    unknown; the default of the flow while the mode asked for is in doubt; then the mode for the answer. *)
Definition error_mode (pol : policy) (r : request) (n : nat) (mode : string) : Prop :=
  if (n <=? 1)%nat then mode = form_value r "response_mode"
  else if (n <=? 3)%nat then forall f, asks_for r f -> mode = flow_default pol f
  else forall f, asks_for r f -> mode_for pol r f mode.

(** ** Later: the user, the hints, the data layer *)
Definition key_of (c : client) : key := match c_key c with Some k => k | None => KOther 0 end.

Inductive late_fault (E : env) (pol : policy) (r : request) (c : client) (tr : list event) : string -> string -> Prop :=
| l_failure :
    ((forall cid c' e, In (Ev (OFindClient cid) (Some c', e)) tr -> can_sign (e_jwt E) c') ->
     exists e, In e tr /\ fatal e) ->
    late_fault E pol r c tr "server_error" ""
| l_login : form_value r "prompt" = "none" -> In (Ev OConfirmLogin (Some false)) tr ->
    late_fault E pol r c tr "login_required" ""
| l_consent : form_value r "prompt" = "none" -> no_consent pol r tr ->
    late_fault E pol r c tr "consent_required" ""
| l_forbidden : form_value r "prompt" = "none" -> c_none c = NoneForbidden ->
    late_fault E pol r c tr "interaction_required" "not allowed to use 'prompt:none'"
| l_no_hint what : form_value r "prompt" = "none" ->
    In (c_none c, what) [(NoneAllowIfLoginHintMatched, "login_hint"); (NoneAllowIfIdTokenHintMatched, "id_token_hint")] ->
    form_value r what = "" ->
    late_fault E pol r c tr "invalid_request" ("in case you pass 'none' for 'prompt', '" ++ what ++ "' is required.")
| l_login_hint : form_value r "prompt" = "none" -> c_none c = NoneAllowIfLoginHintMatched ->
    In (Ev (OMatchSubject (form_value r "login_hint")) (Some false)) tr ->
    late_fault E pol r c tr "invalid_request" "'login_hint' doesn't match to current login user"
| l_hint_unreadable : form_value r "prompt" = "none" -> c_none c = NoneAllowIfIdTokenHintMatched ->
    (forall t, jl_parse (e_jwt E) (form_value r "id_token_hint") <> PToken t) ->
    late_fault E pol r c tr "invalid_request" "'id_token_hint' is invalid."
| l_hint_forged : form_value r "prompt" = "none" -> c_none c = NoneAllowIfIdTokenHintMatched ->
    jl_verify (e_jwt E) (form_value r "id_token_hint") (key_of c) = false ->
    late_fault E pol r c tr "invalid_request" "'id_token_hint' is invalid."
| l_hint_time t now : form_value r "prompt" = "none" -> c_none c = NoneAllowIfIdTokenHintMatched ->
    jl_parse (e_jwt E) (form_value r "id_token_hint") = PToken t -> In (Ev OJwtNow now) tr -> ~ current (e_jwt E) now t ->
    late_fault E pol r c tr "invalid_request" "'id_token_hint' is invalid."
| l_hint_exp t : form_value r "prompt" = "none" -> c_none c = NoneAllowIfIdTokenHintMatched ->
    jl_parse (e_jwt E) (form_value r "id_token_hint") = PToken t -> claim_int t "exp" = None ->
    late_fault E pol r c tr "invalid_request" "'exp' not found in 'id_token_hint'."
| l_hint_sub t : form_value r "prompt" = "none" -> c_none c = NoneAllowIfIdTokenHintMatched ->
    jl_parse (e_jwt E) (form_value r "id_token_hint") = PToken t -> jstr "sub" (jt_claims t) = None ->
    late_fault E pol r c tr "invalid_request" "'sub' not found in 'id_token_hint'."
| l_hint_other t sub : form_value r "prompt" = "none" -> c_none c = NoneAllowIfIdTokenHintMatched ->
    jl_parse (e_jwt E) (form_value r "id_token_hint") = PToken t -> jstr "sub" (jt_claims t) = Some sub ->
    In (Ev (OMatchSubject sub) (Some false)) tr ->
    late_fault E pol r c tr "invalid_request" "'id_token_hint' doesn't match to current login user".

(** How a run of HandleRequest that returns [b] ends.  Everything but an error needs a request
    without faults; an error says what the first fault is, or what happened later. *)
Inductive explained (E : env) (pol : policy) (r : request) (tr : list event) (b : bool) : Prop :=
| x_screen : error_screen_only r tr -> (forall c, ~ approved r c tr) -> b = false -> explained E pol r tr b
| x_error c mode typ desc : approved r c tr ->
    reported mode (form_value r "redirect_uri") (form_value r "state") typ desc tr ->
    (exists n, first_fault_at pol r c n typ desc /\ error_mode pol r n mode) \/
    ((forall n t d, ~ param_fault pol r c n t d) /\ late_fault E pol r c tr typ desc /\
     forall f, asks_for r f -> mode_for pol r f mode) ->
    b = false -> explained E pol r tr b
| x_asked c q : approved r c tr -> (forall n t d, ~ param_fault pol r c n t d) -> validated pol r c q ->
    http_ops tr = [] -> asked c q b tr -> explained E pol r tr b
| x_completed c q info pre tc : approved r c tr -> (forall n t d, ~ param_fault pol r c n t d) ->
    validated pol r c q -> tr = (pre ++ tc)%list -> http_ops pre = [] -> completed E pol (Some info) q tc ->
    b = true -> explained E pol r tr b.
