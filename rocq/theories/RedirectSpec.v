(** * Vocabulary: URIs as RFC 3986 writes them, and what a browser is told.

    These definitions model no code of /repo. *)
From Verif Require Import GoStr Core HttpSpec CodecSpec.

(** ** RFC 3986, appendix A *)

Definition chars (set : string) (a : ascii) : Prop := In a (list_ascii_of_string set).
Definition letters : string := "abcdefghijklmnopqrstuvwxyzABCDEFGHIJKLMNOPQRSTUVWXYZ".
Definition digits : string := "0123456789".
(** unreserved and sub-delims *)
Definition name_chars : string := letters ++ digits ++ "-._~" ++ "!$&'()*+,;=".
(** pchar, and '/' *)
Definition path_chars : string := name_chars ++ ":@/".
(** query and fragment *)
Definition query_chars : string := path_chars ++ "?".

(** Text of the given characters and of escapes: '%' and two hexadecimal digits. *)
Inductive text (set : string) : string -> Prop :=
| text_nil : text set ""
| text_char a s : chars set a -> text set s -> text set (String a s)
| text_escape h l x y s : hex_digit h x -> hex_digit l y -> text set s ->
    text set (String "%" (String h (String l s))).

(** scheme: a letter, then letters, digits, '+', '-' and '.' *)
Inductive scheme : string -> Prop :=
| scheme_intro a s : chars letters a ->
    (forall b, In b (list_ascii_of_string s) -> chars (letters ++ digits ++ "+-.") b) -> scheme (String a s).

(** host: a name or an IPv4 address, with escapes of bytes that are not ASCII only; or
    an IPv6 address in brackets (zones are left out). *)
Inductive reg_name : string -> Prop :=
| reg_nil : reg_name ""
| reg_char a s : chars name_chars a -> reg_name s -> reg_name (String a s)
| reg_escape h l x y s : hex_digit h x -> (8 <= x)%N -> hex_digit l y -> reg_name s ->
    reg_name (String "%" (String h (String l s))).
Inductive host : string -> Prop :=
| host_name s : reg_name s -> host s
| host_literal s : (forall b, In b (list_ascii_of_string s) -> chars (letters ++ digits ++ ":.") b) ->
    host ("[" ++ s ++ "]").

Inductive port : string -> Prop :=
| port_none : port ""
| port_some d : (forall b, In b (list_ascii_of_string d) -> chars digits b) -> port (":" ++ d).

Inductive userinfo : string -> Prop :=
| user_none : userinfo ""
| user_some u : text (name_chars ++ ":") u -> userinfo (u ++ "@").

Inductive hier_part : string -> Prop :=
| hier_authority u h p : userinfo u -> host h -> port p -> hier_part ("//" ++ u ++ h ++ p)
| hier_authority_path u h p path : userinfo u -> host h -> port p -> text path_chars path ->
    hier_part ("//" ++ u ++ h ++ p ++ "/" ++ path)
| hier_absolute path : text path_chars path -> (forall r, path <> String "/" r) -> hier_part ("/" ++ path)
| hier_rootless path : text path_chars path -> (forall r, path <> String "/" r) -> hier_part path.

Inductive query : string -> Prop :=
| query_none : query ""
| query_some q : text query_chars q -> query ("?" ++ q).
Inductive fragment : string -> Prop :=
| fragment_none : fragment ""
| fragment_some f : text query_chars f -> fragment ("#" ++ f).

Inductive uri : string -> Prop :=
| uri_intro s h q f : scheme s -> hier_part h -> query q -> fragment f -> uri (s ++ ":" ++ h ++ q ++ f).

(** It begins with a scheme. *)
Definition absolute (u : string) : Prop := exists s r, scheme s /\ u = (s ++ ":" ++ r)%string.

(** ** What the browser is told *)

(** The values of a header that are set, the statuses, and the bodies. *)
Definition header_of (name : string) (l : list op) : list string :=
  flat_map (fun o => match o with OSetHeader n v => if string_dec n name then [v] else [] | _ => [] end) l.
Definition statuses_of (l : list op) : list Z :=
  flat_map (fun o => match o with OStatus z => [z] | _ => [] end) l.
Definition bodies_of (l : list op) : list string :=
  flat_map (fun o => match o with OBody d => [d] | _ => [] end) l.

(** The browser is redirected to [loc]: a status of 302, one Location. *)
Definition sent_to (loc : string) (l : list op) : Prop :=
  header_of "Location" l = [loc] /\ statuses_of l = [302%Z] /\
  exists a b, l = (a ++ OStatus 302%Z :: b)%list /\ In (OSetHeader "Location" loc) a.

(** [h] is [u] with every byte that is not ASCII escaped. *)
Inductive ascii_form : string -> string -> Prop :=
| af_nil : ascii_form "" ""
| af_ascii a u h : (N_of_ascii a < 128)%N -> ascii_form u h -> ascii_form (String a u) (String a h)
| af_escape a d e x y u h : (128 <= N_of_ascii a)%N -> hex_digit d x -> hex_digit e y -> N_of_ascii a = (x * 16 + y)%N ->
    ascii_form u h -> ascii_form (String a u) (String "%" (String d (String e h))).

(** A path on the server that answers: it begins with one '/'. *)
Definition own_path (u : string) : Prop :=
  exists r, u = String "/" r /\ forall t, r <> String "/" t.

(** The document is a link to [u], and nothing else. *)
Definition links_to (u doc : string) : Prop :=
  exists x rest, html_tokens doc = Some [HOpen "a" [("href", x)]; HText "Found"; HClose "a"; HText rest] /\
    html_decodes x u.
