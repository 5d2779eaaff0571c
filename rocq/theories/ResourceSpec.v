(** * Vocabulary of the statements about the resource protector. *)
From Verif Require Import GoStr Codec Utils Core OAuthError TokenEndpoint ResourceProtector Spec TokenSpec.

(** The Authorization header is "<bearer> <t>...", the scheme in any case. *)
Definition bearer_header (r : request) (t : string) : Prop :=
  exists scheme rest, words_of (header_get r "Authorization") (scheme :: t :: rest) /\
    to_lower scheme = "bearer".

(** Where the protector takes an access token from. *)
Inductive token_from (rp : protector) (r : request) : string -> Prop :=
| tf_header t : bearer_header r t -> t <> "" -> token_from rp r t
| tf_body t : bearer_header r "" -> rp_accept rp = FromHeaderAndPostBody ->
    post_form_value r "access_token" = t -> t <> "" -> token_from rp r t
| tf_form t : bearer_header r "" -> rp_accept rp = FromAll ->
    form_value r "access_token" = t -> t <> "" -> token_from rp r t.

(** Expiry as the code computes it, in 64 bits. *)
Definition access_live (tok : oauthtoken) (now : Z) : Prop :=
  (now <= add64 (ot_refreshed tok) (ot_access_expires tok))%Z.

(** The calls of a successful validation. *)
Definition live_calls (t : string) (tok : oauthtoken) (now : Z) (info : authinfo) : list event :=
  [Ev (OFindByAccess t) (Some tok, None); Ev ONow now;
   Ev (OFindActiveInfo (ot_auth_id tok)) (Some info, None)].

(** Exactly one header with (canonical) name [k], with value [v]. *)
Definition only_header (r : request) (k v : string) : Prop :=
  filter (fun p => fst p =s? k) (r_headers r) = [(k, v)].

(** [r'] is [r] with the identity of [info] in its headers and nothing else changed. *)
Definition identified (r r' : request) (info : authinfo) : Prop :=
  r_method r' = r_method r /\ r_path r' = r_path r /\ r_query r' = r_query r /\ r_body r' = r_body r /\ r_parts r' = r_parts r /\
  only_header r' "X-Oauth-User-Id" (itoa (ai_user info)) /\
  only_header r' "X-Oauth-Client-Id" (ai_client info) /\
  only_header r' "X-Oauth-Scope" (ai_scope info) /\
  (forall k, ~ In k ["X-Oauth-User-Id"; "X-Oauth-Client-Id"; "X-Oauth-Scope"] ->
     filter (fun p => fst p =s? k) (r_headers r') = filter (fun p => fst p =s? k) (r_headers r)).

(** A refusal with a Bearer challenge for error [e]. *)
Definition challenge (rp : protector) (e : oauth_error) (o : list op) : Prop :=
  exists e', error_uri (rp_uri rp) e e' /\
    o = [OSetHeader "WWW-Authenticate" (oerr_header e' (rp_realm rp)); OStatus (oerr_status (oe_type e))].

(** Why, and how, a request is refused. *)
Inductive resource_refusal (rp : protector) (r : request) (tr : list event) : Prop :=
| rr_none :
    (forall t, ~ token_from rp r t) -> data_calls tr = [] ->
    challenge rp (OErr EInvalidRequest "" "") (http_ops tr) -> resource_refusal rp r tr
| rr_unknown t x :
    token_from rp r t -> data_calls tr = [Ev (OFindByAccess t) (x, Some ErrFailed)] ->
    challenge rp (OErr EInvalidToken "" "") (http_ops tr) -> resource_refusal rp r tr
| rr_expired t tok now now2 :
    token_from rp r t ->
    calls tr = [Ev (OFindByAccess t) (Some tok, None); Ev ONow now; Ev ONow now2] ->
    ~ access_live tok now ->
    challenge rp (OErr EInvalidToken "your access_token is expired" "") (http_ops tr) ->
    resource_refusal rp r tr
| rr_inactive t tok now x :
    token_from rp r t ->
    calls tr = [Ev (OFindByAccess t) (Some tok, None); Ev ONow now;
                Ev (OFindActiveInfo (ot_auth_id tok)) (x, Some ErrFailed)] ->
    access_live tok now ->
    challenge rp (OErr EInvalidToken "" "") (http_ops tr) -> resource_refusal rp r tr
| rr_broken ev :
    In ev tr -> data_failure ev = Some Broken -> http_ops tr = [OStatus 500] ->
    resource_refusal rp r tr.

(** The scopes the map lists for the path of the request. *)
Definition required (m : scope_map) (path : string) (scopes : list string) : Prop :=
  In (path, scopes) m.

(** A refusal for want of scope [s], the first one missing. *)
Definition scope_refusal (rp : protector) (m : scope_map) (r : request) (tr : list event) (s : string)
  : Prop :=
  exists t tok now info pre post_,
    token_from rp r t /\ access_live tok now /\
    required m (r_path r) (pre ++ s :: post_) /\
    (forall x, In x pre -> has_word (ai_scope info) x) /\ ~ has_word (ai_scope info) s /\
    calls tr = live_calls t tok now info /\
    challenge rp (OErr EInsufficientScope
      ("this endpoint requires " ++ go_quote s
       ++ " scope, but the access_token was't issued for.") "") (http_ops tr).

(** No data-layer method that changes something was called. *)
Definition only_reads (tr : list event) : Prop := forall ev, In ev tr -> is_update (ev_op ev) = false.

(** A refusal as it appears on the wire. *)
Definition refused_once (tr : list event) : Prop :=
  http_ops tr = [OStatus 500] \/
  exists v st, http_ops tr = [OSetHeader "WWW-Authenticate" v; OStatus st] /\
    In st [400; 401; 403]%Z /\ exists rest, v = ("Bearer " ++ rest)%string.
