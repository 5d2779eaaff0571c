(** * Vocabulary: when authorization requests are in order, and why they are
    refused (no code is modelled). *)
From Verif Require Import GoStr Codec Sha Utils Core AuthzResponse AuthzEndpoint Spec TokenSpec AuthzSpec.

(** The response mode asked for can be used for flow [f], or may be replaced. *)
Definition mode_acceptable (pol : policy) (r : request) (f : flow) : Prop :=
  p_ignore_bad_mode pol = true \/ form_value r "response_mode" = "" \/
  (mode_rank (form_value r "response_mode") <> None /\
   (p_level_check pol = true ->
      mode_rank (flow_default pol f) = None \/ at_least (form_value r "response_mode") (flow_default pol f))).

(** The parameters of [r] are in order, apart from what the client may do. *)
Definition well_formed (pol : policy) (r : request) : Prop :=
  exists f, asks_for r f /\ mode_acceptable pol r f /\
    (form_value r "display" = "" \/ In (form_value r "display") ["page"; "popup"; "wap"; "touch"]) /\
    prompt_ok (form_value r "prompt") /\
    (form_value r "max_age" = "" \/
     exists z, atoi (form_value r "max_age") = Some z /\ (p_min_max_age pol <= z <= p_max_max_age pol)%Z) /\
    (forall s, offline_rule f (form_value r "prompt") (form_value r "scope") s ->
       (s <> "" \/ p_allow_empty_scope pol = true) /\ (f_id f = true -> has_word s "openid")) /\
    (has_word (form_value r "scope") "offline_access" -> f_type f <> FImplicit ->
     has_word (form_value r "prompt") "consent" -> p_allow_empty_scope pol = true \/
       exists l, words_of (form_value r "scope") l /\
         ~ In (filter (fun w => negb (String.eqb w "openid" || String.eqb w "offline_access")) l) [[]; [""]]) /\
    (f_id f = true -> f_type f <> FAuthorizationCode -> form_value r "nonce" <> "") /\
    within (form_value r "nonce") (p_max_nonce pol) /\
    within (form_value r "code_verifier") (p_max_verifier pol).

(** The hint is a current token with an expiry, signed with the client's ID token
    key, about [sub]. *)
Definition hint_good (J : jwtlib) (c : client) (hint : string) (now : Z) (sub : string) : Prop :=
  exists t k, jl_parse J hint = PToken t /\ jl_verify J hint k = true /\
    k = match c_key c with Some k => k | None => KOther 0 end /\
    current J now t /\ claim_int t "exp" <> None /\ jstr "sub" (jt_claims t) = Some sub.

(** What is wrong with the hints of a request with prompt=none. *)
Inductive bad_hint (J : jwtlib) (c : client) (r : request) (tr : list event) : Prop :=
| bh_login : c_none c = NoneAllowIfLoginHintMatched -> form_value r "login_hint" = "" -> bad_hint J c r tr
| bh_idt : c_none c = NoneAllowIfIdTokenHintMatched -> form_value r "id_token_hint" = "" -> bad_hint J c r tr
| bh_mismatch sub : In (Ev (OMatchSubject sub) (Some false)) tr -> bad_hint J c r tr
| bh_unreadable : c_none c = NoneAllowIfIdTokenHintMatched ->
    (forall t, jl_parse J (form_value r "id_token_hint") <> PToken t) -> bad_hint J c r tr
| bh_invalid now : c_none c = NoneAllowIfIdTokenHintMatched -> In (Ev OJwtNow now) tr ->
    (forall sub, ~ hint_good J c (form_value r "id_token_hint") now sub) -> bad_hint J c r tr.

(** The user's recorded consent, as looked up in [tr], does not cover the request. *)
Inductive no_consent (pol : policy) (r : request) (tr : list event) : Prop :=
| nc_none uid i e :
    In (Ev (OFindInfo uid (form_value r "client_id")) (i, Some e)) tr ->
    e <> ErrUnsupported -> e <> ErrServerError -> no_consent pol r tr
| nc_inactive uid info :
    In (Ev (OFindInfo uid (form_value r "client_id")) (Some info, None)) tr -> ai_active info = false ->
    no_consent pol r tr
| nc_scope uid info f s :
    In (Ev (OFindInfo uid (form_value r "client_id")) (Some info, None)) tr ->
    asks_for r f -> offline_rule f (form_value r "prompt") (form_value r "scope") s ->
    ~ same_words (ai_scope info) s -> no_consent pol r tr
| nc_old uid info now :
    In (Ev (OFindInfo uid (form_value r "client_id")) (Some info, None)) tr -> In (Ev ONow now) tr ->
    (add64 (ai_authorized_at info) (p_consent_period pol) <= now)%Z -> no_consent pol r tr.

(** A failure that keeps a request from being served.  (That no authorization of the
    user is found is not one: the user is asked.) *)
Definition fatal (e : event) : Prop :=
  failed e /\
  forall uid cid i x, e = Ev (OFindInfo uid cid) (i, Some x) -> x = ErrUnsupported \/ x = ErrServerError.

(** The run [tr] gives reason to answer request [r] of client [c] with error [typ]. *)
Inductive reason (E : env) (pol : policy) (r : request) (c : client) (typ : string) (tr : list event) : Prop :=
| r_request : typ = "invalid_request" -> ~ well_formed pol r -> reason E pol r c typ tr
| r_flow f : typ = "unauthorized_client" -> asks_for r f -> c_can_flow c (f_type f) = false ->
    reason E pol r c typ tr
| r_scope f s : typ = "invalid_scope" -> asks_for r f ->
    offline_rule f (form_value r "prompt") (form_value r "scope") s ->
    c_can_scope c (f_type f) s = false -> reason E pol r c typ tr
| r_failure : typ = "server_error" ->
    ((forall cid c' e, In (Ev (OFindClient cid) (Some c', e)) tr -> can_sign (e_jwt E) c') ->
     exists e, In e tr /\ fatal e) -> reason E pol r c typ tr
| r_login : typ = "login_required" -> form_value r "prompt" = "none" ->
    In (Ev OConfirmLogin (Some false)) tr -> reason E pol r c typ tr
| r_consent : typ = "consent_required" -> form_value r "prompt" = "none" ->
    no_consent pol r tr -> reason E pol r c typ tr
| r_forbidden : typ = "interaction_required" -> form_value r "prompt" = "none" ->
    c_none c = NoneForbidden -> reason E pol r c typ tr
| r_hint : typ = "invalid_request" -> form_value r "prompt" = "none" ->
    bad_hint (e_jwt E) c r tr -> reason E pol r c typ tr.

(** The user was asked about request [q] of client [c]: for consent if [b], otherwise
    to log in. *)
Definition asked (c : client) (q : arequest) (b : bool) (tr : list event) : Prop :=
  if b then In (Ev (OConsentScreen c q) (Some tt)) tr else exists x, In (Ev (OLoginScreen q) x) tr.

(** How a run of HandleRequest that returns [b] ends: with an error screen for an
    unknown client or redirect URI; with an error sent to the client for a reason;
    with a screen for the user; or with what was asked for. *)
Inductive justified (E : env) (pol : policy) (r : request) (tr : list event) (b : bool) : Prop :=
| j_screen : error_screen_only r tr -> (forall c, ~ approved r c tr) -> b = false -> justified E pol r tr b
| j_error c mode typ : approved r c tr ->
    error_sent mode (form_value r "redirect_uri") (form_value r "state") typ tr ->
    reason E pol r c typ tr -> b = false -> justified E pol r tr b
| j_asked c q : approved r c tr -> validated pol r c q -> http_ops tr = [] -> asked c q b tr ->
    justified E pol r tr b
| j_completed c q info pre tc : approved r c tr -> validated pol r c q ->
    tr = (pre ++ tc)%list -> http_ops pre = [] -> completed E pol (Some info) q tc -> b = true ->
    justified E pol r tr b.

(** ** What the user or the client gets to see *)
Definition outcome_op (o : op) : bool :=
  match o with
  | OErrorScreen _ | OLoginScreen _ | OConsentScreen _ _ | ORedirect _ | OBody _ => true
  | _ => false
  end.
Definition outcomes (tr : list event) : list event := filter (fun e => outcome_op (ev_op e)) tr.

Definition is_answer (e : event) : Prop :=
  (exists uri, ev_op e = ORedirect uri) \/ (exists doc, ev_op e = OBody doc).
Definition screen_failed (e : event) : Prop :=
  (exists q, e = Ev (OLoginScreen q) None) \/ (exists c q, e = Ev (OConsentScreen c q) None).

(** Why an error screen is shown (0: no or unknown client_id, 1: no redirect_uri, 2: redirect_uri
    not allowed, 3: server error): there is no client to go back to, and this is why.  [h]: what happened
    before. *)
Inductive screen_reason (r : request) (n : Z) (h : list event) : Prop :=
| sr_no_client_id : n = 0%Z -> form_value r "client_id" = "" -> screen_reason r n h
| sr_no_redirect :
    n = 1%Z -> form_value r "client_id" <> "" -> form_value r "redirect_uri" = "" ->
    screen_reason r n h
| sr_unknown x :
    n = 0%Z -> In (Ev (OFindClient (form_value r "client_id")) (x, Some ErrFailed)) h ->
    screen_reason r n h
| sr_lookup x e :
    n = 3%Z -> In (Ev (OFindClient (form_value r "client_id")) (x, e)) h ->
    e = Some ErrUnsupported \/ e = Some ErrServerError \/ (x = None /\ e = None) ->
    screen_reason r n h
| sr_refused c e :
    n = 2%Z -> In (Ev (OFindClient (form_value r "client_id")) (Some c, e)) h ->
    c_can_redirect c (form_value r "redirect_uri") = false -> screen_reason r n h.
