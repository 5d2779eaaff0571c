(** * authorization/response.go: answers of the authorization endpoint. *)
From Verif Require Import Core.

(** Environment of the authorization endpoint: the JWT library and whether
    [url.Parse] accepts a string ([Connector] ignores its error and
    dereferences the nil result). *)
Record env := Env { e_jwt : jwtlib; e_url_ok : string -> bool }.

(** authorization/response.go:12-15 [ResponseParamType], and the HTML handler *)
Inductive rkind := RQuery | RFragment | RForm.

(** authorization/response.go:59-70 [ResponseHandlerForMode] *)
Definition handler_for_mode (mode : string) : rkind :=
  if mode =s? "query" then RQuery
  else if mode =s? "fragment" then RFragment
  else if mode =s? "form_post" then RForm
  else RQuery.

(** [url.Parse(uri)]: the part after the first '#' (escaped), and in the part
    before it what follows the first '?'. *)
Definition url_fragment (uri : string) : string := let '(_, f, _) := cut "#" uri in f.
Definition url_rawquery (uri : string) : string :=
  let '(base, _, _) := cut "#" uri in let '(_, q, _) := cut "?" base in q.

(** authorization/response.go:35-57 [Connector] *)
Definition connector (k : rkind) (uri : string) : string :=
  match k with
  | RFragment => if url_fragment uri =s? "" then "#" else "&"
  | _ => if url_rawquery uri =s? "" then "?" else "&"
  end.

(** authorization/response.go:85, 98 *)
Definition location (k : rkind) (uri : string) (params : kvs) : string :=
  uri ++ connector k uri ++ values_encode params.

(** authorization/response.go:126-131: one input element *)
Definition dq (s : string) : string := String dquote (s ++ String dquote "").
Definition form_input (p : string * string) : string :=
  "<input type=" ++ dq "hidden" ++ " name=" ++ dq (fst p) ++ " value=" ++ dq (hescape (snd p)) ++ " />".

(** authorization/response.go:125-132: the document, for a given iteration
    order of the parameter map *)
Definition form_head : string :=
  "<html><head><title>Submit This Form</title></head><body onload="
  ++ dq "javascript:document.forms[0].submit()" ++ ">".
Definition form_tail : string := "</form></body></html>".
Definition form_document (uri : string) (ordered : kvs) : string :=
  form_head ++ "<form method=" ++ dq "post" ++ " action=" ++ dq uri ++ ">"
  ++ join "" (map form_input ordered) ++ form_tail.

(** authorization/response.go:80-87 [RedirectResponseHandler.Success], 109-111,
    125-137 [HTMLResponseHandler.Success], [render].  [params] is the contents of
    the Go map. *)
Definition rh_success (E : env) (k : rkind) (uri : string) (params : kvs) : prog unit :=
  match k with
  | RForm =>
      ordered <- call (OMapOrder params) ;;
      call (OSetHeader "Content-Type" "text/html; charset=UTF-8") ;;;
      call (OSetHeader "Cache-Control" "no-cache, no-store") ;;;
      call (OSetHeader "Pragma" "no-cache") ;;;
      call (OStatus 200) ;;;
      call (OBody (form_document uri (proj1_sig ordered)))
  | _ => if e_url_ok E uri then call (ORedirect (location k uri params)) else Panic
  end.

(** authorization/response.go:89-100, 113-123 [Error] *)
Definition error_params (typ desc state : string) : kvs :=
  (("error", typ)
   :: (if desc =s? "" then [] else [("error_description", desc)])
   ++ (if state =s? "" then [] else [("state", state)]))%list.

Definition rh_error (E : env) (k : rkind) (uri typ desc state : string) : prog unit :=
  rh_success E k uri (error_params typ desc state).
