(** * oauth_error/errors.go *)
From Verif Require Import GoStr Codec Json.

(** oauth_error/errors.go:16-41.  Simplification: the Go type is an int; values
    other than the constants (name "", status 500) are not modelled. *)
Inductive oerr_type :=
| EAccessDenied | EInvalidClient | EInvalidGrant | EInvalidRequest | EInvalidScope
| EUnauthorizedClient | EUnsupportedGrantType | EUnsupportedResponseType | EServerError
| ETemporarilyUnavailable | EInvalidToken | EInsufficientScope | EInteractionRequired
| ELoginRequired | EAccountSelectionRequired | EConsentRequired | EInvalidRequestURI
| EInvalidRequestObject | ERequestNotSupported | ERequestURINotSupported
| ERegistrationNotSupported.

(** oauth_error/errors.go:57-106 [String] *)
Definition oerr_name (t : oerr_type) : string :=
  match t with
  | EAccessDenied => "access_denied"
  | EInvalidClient => "invalid_client"
  | EInvalidGrant => "invalid_grant"
  | EInvalidRequest => "invalid_request"
  | EInvalidScope => "invalid_scope"
  | EUnauthorizedClient => "unauthorized_client"
  | EUnsupportedGrantType => "unsupported_grant_type"
  | EUnsupportedResponseType => "unsupported_response_type"
  | EServerError => "server_error"
  | ETemporarilyUnavailable => "temporarily_unavailable"
  | EInvalidToken => "invalid_token"
  | EInsufficientScope => "insufficient_scope"
  | EInteractionRequired => "interaction_required"
  | ELoginRequired => "login_required"
  | EAccountSelectionRequired => "account_selection_required"
  | EConsentRequired => "consent_required"
  | EInvalidRequestURI => "invalid_request_uri"
  | EInvalidRequestObject => "invalid_request_object"
  | ERequestNotSupported => "request_not_supported"
  | ERequestURINotSupported => "request_uri_not_supported"
  | ERegistrationNotSupported => "registration_not_supported"
  end.

(** oauth_error/errors.go:43-55, 135-142 [errStatusCodeMap], [StatusCode]:
    types absent from the map get 500. *)
Definition oerr_status (t : oerr_type) : Z :=
  match t with
  | EAccessDenied => 403
  | EInvalidClient => 400
  | EInvalidGrant => 400
  | EInvalidRequest => 400
  | EInvalidScope => 400
  | EUnauthorizedClient => 400
  | EUnsupportedGrantType => 400
  | EUnsupportedResponseType => 400
  | EServerError => 500
  | EInvalidToken => 401
  | EInsufficientScope => 403
  | _ => 500
  end.

(** oauth_error/errors.go:108-112 *)
Record oauth_error := OErr { oe_type : oerr_type; oe_desc : string; oe_uri : string }.

(** oauth_error/errors.go:144-154 *)
Definition new_oerr (t : oerr_type) (d : string) : oauth_error := OErr t d "".
Definition simple_oerr (t : oerr_type) : oauth_error := OErr t "" "".

(** oauth_error/errors.go:127-133 [Error] *)
Definition oerr_error (e : oauth_error) : string :=
  if oe_desc e =s? "" then oerr_name (oe_type e)
  else oerr_name (oe_type e) ++ ": " ++ oe_desc e.

(** oauth_error/errors.go:114-118, 156-168 [JSON] *)
Definition oerr_json (e : oauth_error) : string :=
  jprint (JSObj (("error", JSString (oerr_name (oe_type e)))
                 :: omit_empty "error_description" (oe_desc e)
                 ++ omit_empty "error_uri" (oe_uri e))%list).

(** oauth_error/errors.go:170-183 [Header] *)
Definition oerr_header (e : oauth_error) (realm : string) : string :=
  "Bearer " ++ join ", "
    ((if realm =s? "" then [] else [("realm=" ++ go_quote realm)%string])
     ++ [("error=" ++ go_quote (oerr_name (oe_type e)))%string]
     ++ (if oe_desc e =s? "" then [] else [("error_description=" ++ go_quote (oe_desc e))%string])
     ++ (if oe_uri e =s? "" then [] else [("error_uri=" ++ go_quote (oe_uri e))%string]))%list.

(** oauth_error/errors.go:120-125, 185-197 [Query] (go-querystring, omitempty) *)
Definition omit_empty_kv (k v : string) : kvs := if v =s? "" then [] else [(k, v)].
Definition oerr_query (e : oauth_error) (state : string) : string :=
  values_encode (("error", oerr_name (oe_type e))
                 :: omit_empty_kv "error_description" (oe_desc e)
                 ++ omit_empty_kv "error_uri" (oe_uri e)
                 ++ omit_empty_kv "state" state)%list.
