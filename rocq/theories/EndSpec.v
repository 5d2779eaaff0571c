(** * Vocabulary: what the two sides of a code flow see.

    These definitions model no code of /repo. *)
From Verif Require Import Core World Spec AuthzSpec CodecSpec Http HttpSpec SysSpec TraceSpec WorkSpec.
From Verif Require JsonSpec JsonParse.

(** The client gets the parameters [l] from the answer of the authorization endpoint to a
    request of response mode [mode] and redirect URI [uri]: in the query or the fragment
    of the Location, or in a form that is posted to [uri]. *)
Inductive client_sees (mode uri : string) (tr : list event) (l : kvs) : Prop :=
| see_query loc q : mode <> "form_post" -> mode <> "fragment" ->
    http_ops tr = [ORedirect loc] -> query_part loc q -> form_text q l -> client_sees mode uri tr l
| see_fragment loc f : mode = "fragment" ->
    http_ops tr = [ORedirect loc] -> fragment_part loc f -> form_text f l -> client_sees mode uri tr l
| see_form doc : mode = "form_post" ->
    In (OBody doc) (ops tr) -> posts_form doc uri l -> client_sees mode uri tr l.

(** The client reads the document [body] and finds the access token [t]. *)
Definition client_reads (body t : string) : Prop :=
  exists l, JsonSpec.reads_object body l /\ JsonParse.str_field "access_token" l = t.
