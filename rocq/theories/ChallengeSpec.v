(** * Vocabulary: authentication challenges as RFC 7235 has them.

    These definitions model no code of /repo.  RFC 7235, section 2.1 and RFC 7230,
    section 3.2.6: a challenge is a scheme, spaces and parameters separated by commas
    with optional white space; a parameter is a token, '=' and a quoted string, in which
    a backslash makes the next character stand for itself.  (Parameters whose values
    are not quoted, white space around '=' and empty list elements are left out.) *)
From Verif Require Import GoStr Codec.

Definition token_char (a : ascii) : Prop :=
  In a (list_ascii_of_string
    "!#$%&'*+-.^_`|~0123456789abcdefghijklmnopqrstuvwxyzABCDEFGHIJKLMNOPQRSTUVWXYZ").
Definition token (s : string) : Prop := s <> "" /\ forall a, In a (list_ascii_of_string s) -> token_char a.

Definition blank (a : ascii) : Prop := a = " "%char \/ a = "009"%char.
Definition blanks (s : string) : Prop := forall a, In a (list_ascii_of_string s) -> blank a.

(** Characters that may stand in a quoted string: tab, and all but control characters. *)
Definition text_char (a : ascii) : Prop := a = "009"%char \/ ((32 <= N_of_ascii a)%N /\ N_of_ascii a <> 127%N).

(** What stands between the quotes, and what it means. *)
Inductive quoted : string -> string -> Prop :=
| quoted_nil : quoted "" ""
| quoted_char a s t : text_char a -> a <> dquote -> a <> backslash -> quoted s t -> quoted (String a s) (String a t)
| quoted_pair a s t : text_char a -> quoted s t -> quoted (String backslash (String a s)) (String a t).

Definition in_quotes (s : string) : string := String dquote (s ++ String dquote "").

Inductive params : string -> kvs -> Prop :=
| params_one n s v : token n -> quoted s v -> params (n ++ "=" ++ in_quotes s) [(n, v)]
| params_more n s v b1 b2 rest l : token n -> quoted s v -> blanks b1 -> blanks b2 -> params rest l ->
    params (n ++ "=" ++ in_quotes s ++ b1 ++ "," ++ b2 ++ rest) ((n, v) :: l).

(** A client reads the scheme and the parameters out of the header. *)
Definition reads_challenge (h scheme : string) (l : kvs) : Prop :=
  exists sp p, h = (scheme ++ " " ++ sp ++ p)%string /\ token scheme /\
    (forall a, In a (list_ascii_of_string sp) -> a = " "%char) /\ params p l.

(** Printable ASCII only. *)
Definition printable (s : string) : Prop :=
  forall a, In a (list_ascii_of_string s) -> (32 <= N_of_ascii a <= 126)%N.
Definition ascii_text (s : string) : Prop :=
  forall a, In a (list_ascii_of_string s) -> (N_of_ascii a < 128)%N.

(** A parameter that is left out when empty. *)
Definition unless_empty (k v : string) : kvs := if string_dec v "" then [] else [(k, v)].

(** RFC 6750, section 3: the characters an error description may have. *)
Definition description_char (a : ascii) : Prop :=
  (32 <= N_of_ascii a <= 126)%N /\ a <> dquote /\ a <> backslash.
