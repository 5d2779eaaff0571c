(** * Vocabulary of the statements about assertions (no code is modelled). *)
From Verif Require Import GoStr Core OAuthError Grants TokenEndpoint Spec TokenSpec.

(** After the events [h], recording (cid, jti, iat, exp) is right: they are the
    claims of an assertion of this request that verifies under a key of a client
    found before, [cid] is that client, and the assertion is current at a time
    read before. *)
Definition records (J : jwtlib) (te : token_endpoint) (r : request) (h : list event)
  (cid jti : string) (iat exp : Z) : Prop :=
  exists raw c t now,
    (presented_assertion te r raw \/ (raw = form_value r "assertion" /\ raw <> "")) /\
    (exists id, In (Ev (OFindClient id) (Some c, None)) h) /\ In (Ev OJwtNow now) h /\
    verified J raw c t /\ current J now t /\ cid = c_id c /\ jti = claim_jti t /\
    iat = claim_iat t /\ claim_int t "exp" = Some exp.

(** ** What a request says *)

(** The parameters of a token request that goidc knows. *)
Definition known_token_params : list string :=
  ["grant_type"; "client_id"; "client_secret"; "client_assertion"; "client_assertion_type";
   "code"; "redirect_uri"; "code_challenge"; "code_challenge_method"; "refresh_token";
   "username"; "password"; "scope"; "assertion"].

(** The parameters of an authorization request that goidc knows. *)
Definition known_authz_params : list string :=
  ["client_id"; "redirect_uri"; "response_type"; "response_mode"; "state"; "display"; "max_age";
   "prompt"; "scope"; "nonce"; "code_verifier"; "ui_locales"; "id_token_hint"; "login_hint"].

(** [r] and [r'] say the same to a token endpoint. *)
Definition same_token_request (r r' : request) : Prop :=
  r_method r = r_method r' /\
  (forall k, In k known_token_params -> form_value r k = form_value r' k) /\
  (forall k, In k ["client_id"; "client_secret"] -> post_form_value r k = post_form_value r' k) /\
  (forall k, In k ["Authorization"; "REMOTE_ADDR"; "X-FORWARDED-FOR"] ->
     header_get r k = header_get r' k).

(** [r] and [r'] say the same to an authorization endpoint. *)
Definition same_authz_request (r r' : request) : Prop :=
  forall k, In k known_authz_params -> form_value r k = form_value r' k.

(** [r'] is [r] with other query parameters; where both the query and the body
    have a parameter, or no endpoint knows it, anything may be changed. *)
Definition requeried (known : list string) (r r' : request) : Prop :=
  r_method r' = r_method r /\ r_path r' = r_path r /\ r_headers r' = r_headers r /\
  r_body r' = r_body r /\ r_parts r' = r_parts r /\
  forall k, In k known -> In k (map fst (r_body r)) \/ kv_get k (r_query r') = kv_get k (r_query r).
