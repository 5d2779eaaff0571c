(** * log/text.go: the lines that the endpoints log.

    The endpoints' programs perform [OLog level event attributes]; the label and the
    message of the line are added here.  The token endpoint passes a grant type it
    has a handler for, or "common" (token_endpoint.go:87-433, grant/); the
    authorization endpoint and the resource protector pass r.URL.Path. *)
From Verif Require Import Core Json Misc.

(** log/text.go:136-139 [TokenEndpointLog] *)
Definition token_line (grant_type : string) (ev : log_event) (params : kvs) (msg : string) : string :=
  endpoint_log "token_endpoint" grant_type ev params msg.
(** log/text.go:131-134 [AuthorizationEndpointLog], with the label of every call in
    authorization_endpoint.go *)
Definition authz_line (r : request) (ev : log_event) (params : kvs) (msg : string) : string :=
  endpoint_log "authorization_endpoint" (r_path r) ev params msg.
(** log/text.go:141-144 [ProtectedResourceLog], with the label of every call in
    resource_protector.go *)
Definition resource_line (r : request) (ev : log_event) (params : kvs) (msg : string) : string :=
  endpoint_log "protected_resource" (r_path r) ev params msg.
