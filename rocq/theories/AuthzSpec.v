(** * Vocabulary of the statements about the authorization endpoint. *)
From Coq Require Import Permutation.
From Verif Require Import GoStr Codec Sha Utils Core AuthzResponse AuthzEndpoint Spec TokenSpec.

(** ** Answers *)

(** A parameter that is left out when empty. *)
Definition given (s : string) : option string := if string_dec s "" then None else Some s.

(** [params] holds exactly the parameters listed with a value, once each. *)
Definition holds (params : kvs) (l : list (string * option string)) : Prop :=
  NoDup (map fst params) /\ forall k v, In (k, v) params <-> In (k, Some v) l.

(** The events of sending [params] to [uri] in response mode [mode]. *)
Inductive sent (mode uri : string) (params : kvs) : list event -> Prop :=
| sent_form ordered (H : Permutation ordered params) :
    mode = "form_post" ->
    sent mode uri params
      [Ev (OMapOrder params) (exist _ ordered H);
       Ev (OSetHeader "Content-Type" "text/html; charset=UTF-8") tt;
       Ev (OSetHeader "Cache-Control" "no-cache, no-store") tt;
       Ev (OSetHeader "Pragma" "no-cache") tt;
       Ev (OStatus 200) tt;
       Ev (OBody (form_document uri ordered)) tt]
| sent_fragment :
    mode = "fragment" -> sent mode uri params [Ev (ORedirect (location RFragment uri params)) tt]
| sent_query :
    mode <> "form_post" -> mode <> "fragment" ->
    sent mode uri params [Ev (ORedirect (location RQuery uri params)) tt].

(** The run ends by sending [params], and wrote nothing to the response before. *)
Definition answered (mode uri : string) (params : kvs) (tr : list event) : Prop :=
  exists pre ta, tr = (pre ++ ta)%list /\ http_ops pre = [] /\ sent mode uri params ta.

(** An error answer. *)
Definition error_types : list string :=
  ["invalid_request"; "unauthorized_client"; "access_denied"; "invalid_scope"; "server_error";
   "interaction_required"; "login_required"; "consent_required"].
Definition error_sent (mode uri state typ : string) (tr : list event) : Prop :=
  exists desc params,
    answered mode uri params tr /\ In typ error_types /\
    holds params [("error", Some typ); ("error_description", given desc); ("state", given state)].

(** ** What completing a request does *)

Definition session_stored (pol : policy) (info : option authinfo) (req : arequest) (code : string) (at_ : Z)
  : list event :=
  [Ev OCreateCode (Some code); Ev OAuthTime (Some at_);
   Ev (OCreateSession info (ASession (rq_redirect req) code (p_session_expires pol) (rq_verifier req)
                              (rq_nonce req) at_)) None].

(** The same, as a condition on storing session [s] after [h]. *)
Definition session_for (pol : policy) (req : arequest) (s : asession) (h : list event) : Prop :=
  exists a code at_, h = (a ++ [Ev OCreateCode (Some code); Ev OAuthTime (Some at_)])%list /\
    s = ASession (rq_redirect req) code (p_session_expires pol) (rq_verifier req) (rq_nonce req) at_.

(** An access token, if the flow asks for one. *)
Inductive token_made (info : option authinfo) : bool -> option oauthtoken -> list event -> Prop :=
| tm_no : token_made info false None []
| tm_yes t : token_made info true (Some t) [Ev (OCreateToken info false) (Some t, None)].

(** The left half of the hash of [t] that [alg] names (OpenID Connect Core, 3.1.3.6). *)
Definition left_half (alg t h : string) : Prop :=
  (exists p, alg = (p ++ "256")%string /\ h = substring 0 16 (sha256 t)) \/
  (exists p, alg = (p ++ "384")%string /\ h = substring 0 24 (sha384 t)) \/
  (exists p, alg = (p ++ "512")%string /\ h = substring 0 32 (sha512 t)).

(** RFC 4648 section 4: base64 with padding. *)
Definition b64std_alphabet : list ascii := list_ascii_of_string
  "ABCDEFGHIJKLMNOPQRSTUVWXYZabcdefghijklmnopqrstuvwxyz0123456789+/".
Definition rfc4648_std (s : string) : string :=
  string_of_list_ascii
    (map (fun g => nth (bits_value g) b64std_alphabet "="%char)
         (six_bit_groups (flat_map byte_bits (list_ascii_of_string s))))
  ++ match Nat.modulo (String.length s) 3 with
     | 1%nat => "==" | 2%nat => "=" | _ => "" end.

(** The hash claim for [v]: absent when there is nothing to hash. *)
Definition hash_claim (alg : string) (v : option string) (claim : option string) : Prop :=
  match v with
  | None => claim = None
  | Some t => exists h, left_half alg t h /\ claim = Some (rfc4648_std h)
  end.

(** An ID token for [req], if the flow asks for one. *)
Inductive id_made (E : env) (pol : policy) (info : option authinfo) (req : arequest) (clnt : option client)
  (at_ : Z) (access code : option string) : bool -> option string -> list event -> Prop :=
| im_no : id_made E pol info req clnt at_ access code false None []
| im_yes i c iss now cs ah ch idt :
    info = Some i -> clnt = Some c ->
    hash_claim (c_alg c) access ah -> hash_claim (c_alg c) code ch ->
    id_claims cs iss (ai_client i) (ai_subject i) (rq_nonce req) (add64 now (p_idt_expires pol)) at_ now ah ch ->
    signed_for (e_jwt E) c cs idt ->
    id_made E pol info req clnt at_ access code true (Some idt) [Ev OIssuer iss; Ev ONow now].

Definition access_of (t : option oauthtoken) : option string :=
  match t with Some t => given (ot_access t) | None => None end.
Definition token_params (lifetime : string) (t : option oauthtoken) : list (string * option string) :=
  match t with
  | Some t => [("access_token", Some (ot_access t)); ("token_type", Some "bearer");
               (lifetime, Some (itoa (ot_access_expires t)))]
  | None => []
  end.

(** The whole run of a request completed successfully for authorization [info]. *)
Inductive completed (E : env) (pol : policy) (info : option authinfo) (req : arequest)
  : list event -> Prop :=
| completed_code f code at_ params ta :
    rq_flow req = Some f -> f_type f = FAuthorizationCode ->
    holds params [("code", Some code); ("state", given (rq_state req))] ->
    sent (rq_mode req) (rq_redirect req) params ta ->
    completed E pol info req (session_stored pol info req code at_ ++ ta)
| completed_implicit f clnt tok idt at_ tt_ ti params ta :
    rq_flow req = Some f -> f_type f = FImplicit ->
    token_made info (f_access f) tok tt_ ->
    id_made E pol info req clnt at_ (access_of tok) None (f_id f) idt ti ->
    holds params ([("state", given (rq_state req)); ("scope", given (rq_scope req))]
                  ++ token_params "rexpires_in" tok ++ [("id_token", idt)]) ->
    sent (rq_mode req) (rq_redirect req) params ta ->
    completed E pol info req
      ([Ev (OFindClient (rq_client req)) (clnt, None)] ++ tt_ ++ [Ev OAuthTime (Some at_)] ++ ti ++ ta)
| completed_hybrid f clnt tok idt code at_ tt_ ti params ta :
    rq_flow req = Some f -> f_type f = FHybrid ->
    token_made info (f_access f) tok tt_ ->
    id_made E pol info req clnt at_ (access_of tok) (Some code) (f_id f) idt ti ->
    holds params ([("code", Some code); ("state", given (rq_state req)); ("scope", given (rq_scope req))]
                  ++ token_params "expires_in" tok ++ [("id_token", idt)]) ->
    sent (rq_mode req) (rq_redirect req) params ta ->
    completed E pol info req
      (session_stored pol info req code at_ ++ [Ev (OFindClient (rq_client req)) (clnt, None)]
       ++ tt_ ++ ti ++ ta).

(** Operations that give something to a client. *)
Definition issues (o : op) : bool :=
  match o with
  | OCreateCode | OCreateSession _ _ | OCreateToken _ _ | OCreateInfo _ _ _ => true
  | _ => false
  end.

(** ** Deciding whether to complete a request *)

(** [l] occurs in [h] without anything in between. *)
Definition segment (l h : list event) : Prop := exists a b, h = (a ++ l ++ b)%list.

Definition same_words (a b : string) : Prop :=
  exists la lb, words_of a la /\ words_of b lb /\ Permutation la lb.

(** The data layer answered that the user now logged in gave [req]'s client the
    authorization [info], for the same scopes and recently. *)
Definition consent_on_record (pol : policy) (req : arequest) (info : authinfo) (h : list event) : Prop :=
  exists uid now,
    segment [Ev OLoginUser (Some uid); Ev (OFindInfo uid (rq_client req)) (Some info, None); Ev ONow now] h /\
    ai_active info = true /\ same_words (ai_scope info) (rq_scope req) /\
    (now < add64 (ai_authorized_at info) (p_consent_period pol))%Z.

(** The user is logged in. *)
Definition login_confirmed (h : list event) : Prop := In (Ev OConfirmLogin (Some true)) h.

(** If the request wants the user to log in again, it comes from a login. *)
Definition relogin (req : arequest) (h : list event) : Prop :=
  has_word (rq_prompt req) "login" -> In (Ev OFromLogin (Some true)) h.

(** The login is not older than [max_age]. *)
Definition fresh_login (req : arequest) (h : list event) : Prop :=
  (0 < rq_max_age req)%Z ->
  exists at_ now, segment [Ev OAuthTime (Some at_); Ev ONow now] h /\
    (sub64 now at_ <= rq_max_age req)%Z.

(** ** Validated requests *)

(** The client of the request, found and approving of the redirect URI. *)
Definition approved (r : request) (c : client) (h : list event) : Prop :=
  form_value r "client_id" <> "" /\ form_value r "redirect_uri" <> "" /\
  c_can_redirect c (form_value r "redirect_uri") = true /\
  exists e rest, h = Ev (OFindClient (form_value r "client_id")) (Some c, e) :: rest /\
    match e with None | Some (ErrOther _) => True | _ => False end.

(** [f] is what the words [l] of a response_type ask for. *)
Definition flow_for (l : list string) (f : flow) : Prop :=
  NoDup l /\ incl l ["code"; "token"; "id_token"] /\
  (f_access f = true <-> In "token" l) /\ (f_id f = true <-> In "id_token" l) /\
  f_type f = (if in_dec string_dec "code" l
              then if list_eq_dec string_dec l ["code"] then FAuthorizationCode else FHybrid
              else FImplicit).

Definition within (v : string) (max : Z) : Prop := v = "" \/ (Z.of_nat (String.length v) <= max)%Z.

(** [s'] is the scope [s] without offline_access, unless it was allowed. *)
Definition offline_rule (f : flow) (prompt s s' : string) : Prop :=
  (has_word s "offline_access" /\ (f_type f = FImplicit \/ ~ has_word prompt "consent") /\
   exists l, words_of s l /\
     let keep := filter (fun w => negb (String.eqb w "offline_access")) l in
     (keep = [] -> s' = "") /\ (keep <> [] -> words_of s' keep))
  \/ ((~ has_word s "offline_access" \/ (f_type f <> FImplicit /\ has_word prompt "consent")) /\ s' = s).

(** The prompt is absent, or a list of known words in which none stands alone. *)
Definition prompt_ok (p : string) : Prop :=
  p = "" \/ exists l, words_of p l /\
    Forall (fun w => In w ["none"; "login"; "consent"; "select_account"]) l /\
    (In "none" l -> Forall (fun w => w = "none") l).

(** ** Response modes, least secure first *)
Definition mode_rank (m : string) : option nat :=
  if string_dec m "query" then Some 0%nat
  else if string_dec m "fragment" then Some 1%nat
  else if string_dec m "form_post" then Some 2%nat else None.
Definition at_least (m d : string) : Prop :=
  exists a b, mode_rank m = Some a /\ mode_rank d = Some b /\ (b <= a)%nat.

(** ** Response modes of answers *)

(** The configured default mode for a flow (hybrid flows share the implicit one). *)
Definition flow_default (pol : policy) (f : flow) : string :=
  match f_type f with FAuthorizationCode => p_code_mode pol | _ => p_implicit_mode pol end.

(** The mode that [r] asks for is known and, where that is checked, not weaker than the default. *)
Definition mode_usable (pol : policy) (r : request) (f : flow) : Prop :=
  mode_rank (form_value r "response_mode") <> None /\
  (p_level_check pol = true -> mode_rank (flow_default pol f) <> None ->
   at_least (form_value r "response_mode") (flow_default pol f)).

(** [m] is the mode to answer request [r], which asks for flow [f]: the one asked for if it
    can be used, otherwise the default. *)
Definition mode_for (pol : policy) (r : request) (f : flow) (m : string) : Prop :=
  (m = flow_default pol f \/ (m = form_value r "response_mode" /\ mode_rank m <> None)) /\
  (p_level_check pol = true -> mode_rank (flow_default pol f) <> None -> at_least m (flow_default pol f)) /\
  (mode_usable pol r f -> m = form_value r "response_mode").

(** [q] is what request [r] of client [c] asks for, and within the policy. *)
Record validated (pol : policy) (r : request) (c : client) (q : arequest) : Prop := Validated {
  v_client : rq_client q = form_value r "client_id";
  v_redirect : rq_redirect q = form_value r "redirect_uri";
  v_approved : c_can_redirect c (rq_redirect q) = true;
  v_state : rq_state q = form_value r "state";
  v_flow : exists f l, rq_flow q = Some f /\ words_of (form_value r "response_type") l /\ flow_for l f /\
    c_can_flow c (f_type f) = true /\ c_can_scope c (f_type f) (rq_scope q) = true /\
    offline_rule f (rq_prompt q) (form_value r "scope") (rq_scope q) /\
    (f_id f = true -> has_word (rq_scope q) "openid") /\
    (f_id f = true -> f_type f <> FAuthorizationCode -> rq_nonce q <> "");
  v_mode : forall f, rq_flow q = Some f -> mode_for pol r f (rq_mode q);
  v_scope : rq_scope q <> "" \/ p_allow_empty_scope pol = true;
  v_display : In (rq_display q) ["page"; "popup"; "wap"; "touch"] /\
    (form_value r "display" <> "" -> rq_display q = form_value r "display");
  v_prompt : rq_prompt q = form_value r "prompt" /\ prompt_ok (rq_prompt q);
  v_max_age :
    (form_value r "max_age" = "" /\ rq_max_age q = 0%Z) \/
    (atoi (form_value r "max_age") = Some (rq_max_age q) /\
     (p_min_max_age pol <= rq_max_age q <= p_max_max_age pol)%Z);
  v_nonce : rq_nonce q = form_value r "nonce" /\ within (rq_nonce q) (p_max_nonce pol);
  v_verifier : rq_verifier q = form_value r "code_verifier" /\ within (rq_verifier q) (p_max_verifier pol);
  v_hints : rq_idt_hint q = form_value r "id_token_hint" /\ rq_login_hint q = form_value r "login_hint" }.

(** ** prompt=none *)

(** The id_token_hint is a current token signed with the client's ID token key,
    about [sub]. *)
Definition hint_about (J : jwtlib) (c : client) (req : arequest) (now : Z) (sub : string) : Prop :=
  exists t k, jl_parse J (rq_idt_hint req) = PToken t /\ jl_verify J (rq_idt_hint req) k = true /\
    k = match c_key c with Some k => k | None => KOther 0 end /\
    current J now t /\ jstr "sub" (jt_claims t) = Some sub.

(** What the client's policy for prompt=none asks for. *)
Definition none_policy (J : jwtlib) (c : client) (req : arequest) (h : list event) : Prop :=
  match c_none c with
  | NoneForbidden => False
  | NoneAllowWithLoginSession => login_confirmed h
  | NoneAllowIfLoginHintMatched =>
      rq_login_hint req <> "" /\ login_confirmed h /\
      In (Ev (OMatchSubject (rq_login_hint req)) (Some true)) h
  | NoneAllowIfIdTokenHintMatched =>
      exists now sub, hint_about J c req now sub /\ In (Ev OJwtNow now) h /\
        In (Ev (OMatchSubject sub) (Some true)) h
  | NoneOther => True
  end.

(** The request is handled without user interaction: prompt is exactly "none" and
    the client has one of the four known policies. *)
Definition silent (c : client) (req : arequest) : Prop :=
  rq_prompt req = "none" /\ c_none c <> NoneOther.

(** The client allows to skip the consent screen and the request does not insist. *)
Definition may_omit (c : client) (req : arequest) : Prop :=
  ~ has_word (rq_prompt req) "consent" /\ c_no_consent c = OmitConsentIfCan.

(** What must have happened before the consent screen is shown. *)
Definition may_ask (c : client) (req : arequest) (h : list event) : Prop :=
  ~ silent c req /\ (rq_prompt req <> "none" -> login_confirmed h) /\ relogin req h /\ fresh_login req h.

(** What must have happened before something is issued for [info]. *)
Definition may_issue (J : jwtlib) (pol : policy) (c : client) (req : arequest) (info : authinfo)
  (h : list event) : Prop :=
  consent_on_record pol req info h /\ ~ has_word (rq_prompt req) "consent" /\
  (~ silent c req -> c_no_consent c = OmitConsentIfCan) /\
  (rq_prompt req = "none" -> none_policy J c req h) /\
  (rq_prompt req <> "none" -> login_confirmed h) /\
  relogin req h /\ (~ silent c req -> fresh_login req h).

(** ** Whole runs of HandleRequest *)

(** The request asks for a known flow. *)
Definition asks_for (r : request) (f : flow) : Prop :=
  exists l, words_of (form_value r "response_type") l /\ flow_for l f.

(** Only an error screen: nothing but the client lookup, log entries and
    ShowErrorScreen. *)
Definition error_screen_only (r : request) (tr : list event) : Prop :=
  exists n, filter (fun o => match o with OLog _ _ _ => false | _ => true end) (ops tr) =
    ((if string_dec (form_value r "client_id") "" then []
      else if string_dec (form_value r "redirect_uri") "" then []
      else [OFindClient (form_value r "client_id")]) ++ [OErrorScreen n])%list.

Inductive handled (E : env) (pol : policy) (r : request) (tr : list event) : Prop :=
| h_screen : error_screen_only r tr -> (forall c, ~ approved r c tr) -> handled E pol r tr
| h_asked c q :
    approved r c tr -> validated pol r c q -> http_ops tr = [] ->
    (exists o, In o (ops tr) /\ (o = OLoginScreen q \/ exists c', o = OConsentScreen c' q)) ->
    handled E pol r tr
| h_error c mode typ :
    approved r c tr ->
    error_sent mode (form_value r "redirect_uri") (form_value r "state") typ tr ->
    (forall f, asks_for r f -> mode_for pol r f mode) ->
    handled E pol r tr
| h_completed c q f info pre tc :
    approved r c tr -> validated pol r c q -> rq_flow q = Some f ->
    tr = (pre ++ tc)%list -> http_ops pre = [] -> completed E pol (Some info) q tc ->
    handled E pol r tr.

(** ** Reading a run *)

(** The run [tr] performs [o] after [t1]. *)
Definition performs (tr t1 : list event) (o : op) : Prop := exists a t2, tr = (t1 ++ Ev o a :: t2)%list.

(** [o], performed after [h], gives something away for request [q], and for
    authorization [info] if it names one. *)
Definition issues_for (pol : policy) (q : arequest) (o : op) (info : authinfo) (h : list event) : Prop :=
  issues o = true /\
  match o with
  | OCreateSession i s => i = Some info /\ session_for pol q s h
  | OCreateToken i on_token_endpoint => i = Some info /\ on_token_endpoint = false
  | _ => True
  end.

(** [o] asks the user for consent. *)
Definition asks_consent (o : op) : Prop := exists c q, o = OConsentScreen c q.

(** ** Failures *)

(** A callback or the data layer answered with an error (or with nothing). *)
Definition callback_error (e : event) : Prop :=
  match e with
  | Ev o a =>
      (match o as o0 return ans o0 -> Prop with
       | OLoginScreen _ => fun x => x = None
       | OConsentScreen _ _ => fun x => x = None
       | OChooseLocale _ => fun x => x = None
       | OConfirmLogin => fun x => x = None
       | OFromLogin => fun x => x = None
       | OMatchSubject _ => fun x => x = None
       | OAuthTime => fun x => x = None
       | OLoginUser => fun x => x = None
       | OCreateCode => fun x => x = None
       | OContinue => fun x => x = None
       | _ => fun _ => False
       end) a
  end.
Definition failed (e : event) : Prop := callback_error e \/ data_failure e <> None.

(** The data layer or Continue answered nil and no error, or FindClientById nil and
    an error of an unknown type. *)
Definition nil_answer (e : event) : Prop :=
  match e with
  | Ev o a =>
      (match o as o0 return ans o0 -> Prop with
       | OFindClient _ => fun x => x = (None, None) \/ exists n, x = (None, Some (ErrOther n))
       | OCreateToken _ _ => fun x => x = (None, None)
       | OCreateInfo _ _ _ => fun x => x = (None, None)
       | OContinue => fun x => x = Some None
       | _ => fun _ => False
       end) a
  end.

(** ID tokens and hashes can be made for [c]. *)
Definition can_sign (J : jwtlib) (c : client) : Prop :=
  jl_has_alg J (c_alg c) = true /\ (forall kid cs, jl_sign J (c_alg c) kid cs (c_key c) <> None) /\
  exists p, c_alg c = (p ++ "256")%string \/ c_alg c = (p ++ "384")%string \/ c_alg c = (p ++ "512")%string.

(** ** CompleteRequest and CancelRequest *)

(** The run starts by fetching the stored request [req], and recording that the
    user now logged in gave its client the scope it asks for, as [info]. *)
Definition recorded (req : arequest) (info : option authinfo) (t : list event) : Prop :=
  exists uid rest,
    t = (Ev OContinue (Some (Some req)) :: Ev OLoginUser (Some uid) ::
         Ev (OCreateInfo uid (rq_client req) (rq_scope req)) (info, None) :: rest)%list.

(** The ID token sent beside the other parameters has the hashes of the access
    token and the code sent with it: the left half in padded standard base64. *)
Definition hashes_sent (E : env) (req : arequest) (f : flow) (tc : list event) : Prop :=
  exists params c cs idt,
    answered (rq_mode req) (rq_redirect req) params tc /\ In ("id_token", idt) params /\
    signed_for (e_jwt E) c cs idt /\ In (Ev (OFindClient (rq_client req)) (Some c, None)) tc /\
    (forall v, In ("at_hash", CStr v) cs <->
       exists t h, In ("access_token", t) params /\ t <> "" /\ left_half (c_alg c) t h /\ v = rfc4648_std h) /\
    (forall v, In ("c_hash", CStr v) cs <->
       exists t h, In ("code", t) params /\ left_half (c_alg c) t h /\ v = rfc4648_std h).

(** The sessions a run stores. *)
Definition sessions (tr : list event) : list (option authinfo * asession) :=
  flat_map (fun o => match o with OCreateSession i s => [(i, s)] | _ => [] end) (ops tr).
