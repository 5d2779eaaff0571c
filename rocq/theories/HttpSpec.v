(** * Vocabulary: parameters on the wire.

    These definitions model no code of /repo: they say what application/x-www-form-urlencoded
    text stands for (URL standard, section 5; RFC 6749, appendix B). *)
From Verif Require Import GoStr Codec Core CodecSpec Http.

(** A hexadecimal digit, of either case, and its value. *)
Inductive hex_digit : ascii -> N -> Prop :=
| hx_digit n : (n < 10)%N -> hex_digit (ascii_of_N (48 + n)) n
| hx_upper n : (10 <= n < 16)%N -> hex_digit (ascii_of_N (55 + n)) n
| hx_lower n : (10 <= n < 16)%N -> hex_digit (ascii_of_N (87 + n)) n.

(** Escaped text and what it stands for: '+' stands for a space, '%' and two
    hexadecimal digits for a byte, and any other byte for itself, except '%', '&' and
    ';'. *)
Inductive stands_for : string -> string -> Prop :=
| sf_nil : stands_for "" ""
| sf_plus s t : stands_for s t -> stands_for (String "+" s) (String " " t)
| sf_hex h l x y s t : hex_digit h x -> hex_digit l y -> stands_for s t ->
    stands_for (String "%" (String h (String l s))) (String (ascii_of_N (x * 16 + y)) t)
| sf_byte a s t : a <> "+"%char -> a <> "%"%char -> a <> "&"%char -> a <> ";"%char -> stands_for s t ->
    stands_for (String a s) (String a t).

(** A component of a form: a name, '=' and a value; or a name alone, with an empty
    value. *)
Inductive component : string -> string * string -> Prop :=
| comp_pair n v k x : stands_for n k -> no_byte "=" n -> stands_for v x -> component (n ++ "=" ++ v) (k, x)
| comp_name n k : n <> "" -> stands_for n k -> no_byte "=" n -> component n (k, "").

(** What a list of components stands for: those that stand for nothing count for
    nothing. *)
Inductive components : list string -> kvs -> Prop :=
| cs_nil : components [] []
| cs_some w p ws l : component w p -> components ws l -> components (w :: ws) (p :: l)
| cs_none w ws l : (forall p, ~ component w p) -> components ws l -> components (w :: ws) l.

Definition form_text (q : string) (l : kvs) : Prop :=
  exists ws, ws <> [] /\ q = String.concat "&" ws /\ Forall (no_byte "&") ws /\ components ws l.

(** ** The Content-Type header (RFC 7231, 3.1.1.1; RFC 7230, 3.2.6) *)

Definition blanks (s : string) : Prop := forall a, In a (list_ascii_of_string s) -> a = " "%char \/ a = "009"%char.
Definition tchar (a : ascii) : Prop :=
  In a (list_ascii_of_string "!#$%&'*+-.^_`|~0123456789ABCDEFGHIJKLMNOPQRSTUVWXYZabcdefghijklmnopqrstuvwxyz").
Definition token_text (s : string) : Prop := s <> "" /\ forall a, In a (list_ascii_of_string s) -> tchar a.

(** What stands between the quotes of a quoted string, and what it stands for: bytes
    for themselves, and after a backslash a special character. *)
Inductive in_quotes : string -> string -> Prop :=
| iq_nil : in_quotes "" ""
| iq_byte a s t : a <> dquote -> a <> "\"%char -> a <> "010"%char -> a <> "013"%char ->
    in_quotes s t -> in_quotes (String a s) (String a t)
| iq_pair a s t : In a (list_ascii_of_string "()<>@,;:\""/[]?=") -> in_quotes s t ->
    in_quotes (String "\" (String a s)) (String a t).
Inductive param_value : string -> string -> Prop :=
| pv_token t : token_text t -> param_value t t
| pv_quoted s t : in_quotes s t -> param_value (String dquote (s ++ String dquote "")) t.

(** The parameters of a media type, their names in lower case. *)
Inductive media_params : string -> kvs -> Prop :=
| mp_end w : blanks w -> media_params w []
| mp_param o1 o2 n raw v rest l : blanks o1 -> blanks o2 -> token_text n -> param_value raw v -> media_params rest l ->
    media_params (o1 ++ ";" ++ o2 ++ n ++ "=" ++ raw ++ rest) ((to_lower n, v) :: l).

(** A Content-Type header with media type [t] and parameters [l]. *)
Definition content_type (ct t : string) (l : kvs) : Prop :=
  exists pre x y rest, ct = (pre ++ t ++ rest)%string /\ blanks pre /\
    t = (x ++ "/" ++ y)%string /\ token_text x /\ token_text y /\ media_params rest l.

(** No parameter has two values. *)
Definition one_value (l : kvs) : Prop := forall k v v', In (k, v) l -> In (k, v') l -> v = v'.

(** The request says that its body is a form. *)
Definition says_form (w : wire) : Prop :=
  exists ct t l, kv_get "Content-Type" (w_headers w) = Some ct /\ content_type ct t l /\
    to_lower t = "application/x-www-form-urlencoded" /\ one_value l.

(** The first value of a parameter, if there is one. *)
Inductive first_value (k : string) : kvs -> string -> Prop :=
| fv_here v l : first_value k ((k, v) :: l) v
| fv_later k' v' l v : k' <> k -> first_value k l v -> first_value k ((k', v') :: l) v.

(** The Content-Type header does not speak of multipart/form-data. *)
Definition no_multipart (w : wire) : Prop :=
  forall ct a b, kv_get "Content-Type" (w_headers w) = Some ct -> to_lower ct <> (a ++ "multipart/form-data" ++ b)%string.

(** The parameters sent in the query, and in an urlencoded body, if any. *)
Definition sent (w : wire) (body query : kvs) : Prop :=
  form_text (w_query w) query /\
  (In (w_method w) ["POST"; "PUT"; "PATCH"] /\ says_form w /\ (N.of_nat (String.length (w_body w)) <= 10485760)%N /\ form_text (w_body w) body
   \/ ~ In (w_method w) ["POST"; "PUT"; "PATCH"] /\ no_multipart w /\ body = []).

(** ** Multipart bodies (RFC 2046, 5.1.1; RFC 7578, 4) *)

Definition CRLF : string := String "013" (String "010" "").
Definition bchar (a : ascii) : Prop :=
  In a (list_ascii_of_string "'()+_,-./:=?0123456789ABCDEFGHIJKLMNOPQRSTUVWXYZabcdefghijklmnopqrstuvwxyz").
Definition one_line (s : string) : Prop := forall a, In a (list_ascii_of_string s) -> a <> "013"%char /\ a <> "010"%char.
Definition no_space_around (s : string) : Prop :=
  forall a, (exists t, s = String a t) \/ (exists t, s = (t ++ String a "")%string) -> ~ In a [" "%char; "009"%char; "011"%char; "012"%char].

(** Header lines, up to the empty line: names and values. *)
Inductive header_lines : string -> kvs -> Prop :=
| hl_end : header_lines CRLF []
| hl_line n sp v rest l : token_text n -> blanks sp -> one_line v -> no_space_around v -> header_lines rest l ->
    header_lines (n ++ ":" ++ sp ++ v ++ CRLF ++ rest) ((to_lower n, v) :: l).

(** The header of the part with the value of [k]: "Content-Disposition: form-data;
    name=k", in any spelling, perhaps among other lines. *)
Definition names_field (h k : string) : Prop :=
  exists l d t rest ps, header_lines h l /\ first_value "content-disposition" l d /\
    (forall v, ~ In ("content-transfer-encoding", v) l) /\
    d = (t ++ rest)%string /\ token_text t /\ to_lower t = "form-data" /\ media_params rest ps /\ one_value ps /\
    In ("name", k) ps /\ k <> "" /\ (forall f, ~ In ("filename", f) ps) /\ (forall f v, In (f, v) ps -> no_byte "*" f).

(** What follows a delimiter, up to the end of the body: parts with a header and a
    value, which has no delimiter in it. *)
Definition no_delimiter (b v : string) : Prop :=
  (forall p q, v <> (p ++ CRLF ++ "--" ++ b ++ q)%string) /\ (forall q, v <> ("--" ++ b ++ q)%string).
Inductive fields (b : string) : string -> kvs -> Prop :=
| fs_last h k v z : names_field h k -> no_delimiter b v -> z = "" \/ (exists epilogue, z = (CRLF ++ epilogue)%string) ->
    fields b (h ++ v ++ CRLF ++ "--" ++ b ++ "--" ++ z) [(k, v)]
| fs_more h k v sp rest l : names_field h k -> no_delimiter b v -> blanks sp -> fields b rest l ->
    fields b (h ++ v ++ CRLF ++ "--" ++ b ++ sp ++ CRLF ++ rest) ((k, v) :: l).

(** A multipart body with boundary [b] and the fields [l], perhaps after a preamble of
    lines that do not begin with two hyphens. *)
Inductive multipart_text (b : string) : string -> kvs -> Prop :=
| mt_first sp rest l : blanks sp -> fields b rest l -> multipart_text b ("--" ++ b ++ sp ++ CRLF ++ rest) l
| mt_preamble x body l : one_line x -> (forall y, x <> ("--" ++ y)%string) -> multipart_text b body l -> multipart_text b (x ++ CRLF ++ body) l.

(** The fields sent in a multipart body, and the parameters sent in the query. *)
Definition sent_multipart (w : wire) (body query : kvs) : Prop :=
  form_text (w_query w) query /\
  exists ct t l b, kv_get "Content-Type" (w_headers w) = Some ct /\ content_type ct t l /\
    to_lower t = "multipart/form-data" /\ one_value l /\ (forall f v, In (f, v) l -> no_byte "*" f) /\ In ("boundary", b) l /\
    b <> "" /\ (forall a, In a (list_ascii_of_string b) -> bchar a) /\
    multipart_text b (w_body w) body /\ (N.of_nat (String.length (w_body w)) <= 10485760)%N.
