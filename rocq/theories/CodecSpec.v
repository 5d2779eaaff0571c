(** * Vocabulary for the statements about encoded answers (C44-C46, C49, C50).

    These definitions do not model code of /repo: they say how a client (a
    browser, an OAuth client library) reads what it is sent. *)
From Verif Require Import GoStr Codec.
From Coq Require Import Permutation.

Definition no_byte (c : ascii) (s : string) : Prop := ~ In c (list_ascii_of_string s).

(** RFC 3986: the fragment starts at the first '#'; the query starts at the first
    '?' before it and ends where the fragment starts. *)
Definition fragment_part (u f : string) : Prop :=
  exists p, u = (p ++ "#" ++ f)%string /\ no_byte "#" p.
Definition query_part (u q : string) : Prop :=
  exists p rest, u = (p ++ "?" ++ q ++ rest)%string /\ no_byte "?" p /\ no_byte "#" p /\ no_byte "#" q /\
    (rest = "" \/ exists f, rest = ("#" ++ f)%string).

(** ** HTML

    A reader for the part of the WHATWG tokenizer the document of form_post mode
    exercises: text up to '<'; then an end tag or a start tag; attributes with
    double-quoted values, '/' and '>'.  An attribute value ends at the next
    double quote.  [None]: something outside this part (unquoted values, ...). *)
Inductive html_token :=
| HText (s : string)
| HOpen (name : string) (attrs : kvs)          (* attribute values as written *)
| HClose (name : string).

Inductive html_state :=
| SText (acc : string)                          (* accumulators are reversed *)
| STagStart                                     (* just after '<' *)
| SCloseName (acc : string)
| SName (acc : string)
| SAttrs (name : string) (attrs : kvs)          (* between attributes *)
| SAttrName (name : string) (attrs : kvs) (acc : string)
| SAttrEq (name : string) (attrs : kvs) (k : string)      (* just after '=' *)
| SValue (name : string) (attrs : kvs) (k acc : string).

Fixpoint srev_app (s acc : string) : string :=
  match s with
  | EmptyString => acc
  | String a r => srev_app r (String a acc)
  end.
Definition srev (s : string) : string := srev_app s "".

Definition text_token (acc : string) (rest : list html_token) : list html_token :=
  if string_dec acc "" then rest else HText (srev acc) :: rest.
Definition emit (t : html_token) (r : option (list html_token)) : option (list html_token) :=
  option_map (cons t) r.

Fixpoint html_read (st : html_state) (s : string) : option (list html_token) :=
  match s with
  | EmptyString =>
      match st with
      | SText acc => Some (text_token acc [])
      | _ => None
      end
  | String a r =>
      match st with
      | SText acc =>
          if Ascii.eqb a "<" then option_map (text_token acc) (html_read STagStart r)
          else html_read (SText (String a acc)) r
      | STagStart =>
          if Ascii.eqb a "/" then html_read (SCloseName "") r
          else if is_alpha a then html_read (SName (String a "")) r
          else None
      | SCloseName acc =>
          if Ascii.eqb a ">" then emit (HClose (srev acc)) (html_read (SText "") r)
          else if is_alpha a then html_read (SCloseName (String a acc)) r
          else None
      | SName acc =>
          if Ascii.eqb a ">" then emit (HOpen (srev acc) []) (html_read (SText "") r)
          else if Ascii.eqb a " " then html_read (SAttrs (srev acc) []) r
          else if is_alpha a then html_read (SName (String a acc)) r
          else None
      | SAttrs name attrs =>
          if Ascii.eqb a ">" then emit (HOpen name (rev attrs)) (html_read (SText "") r)
          else if (Ascii.eqb a " " || Ascii.eqb a "/")%bool then html_read (SAttrs name attrs) r
          else if is_alpha a then html_read (SAttrName name attrs (String a "")) r
          else None
      | SAttrName name attrs acc =>
          if Ascii.eqb a "=" then html_read (SAttrEq name attrs (srev acc)) r
          else if is_alpha a then html_read (SAttrName name attrs (String a acc)) r
          else None
      | SAttrEq name attrs k =>
          if Ascii.eqb a dquote then html_read (SValue name attrs k "") r else None
      | SValue name attrs k acc =>
          if Ascii.eqb a dquote then html_read (SAttrs name ((k, srev acc) :: attrs)) r
          else html_read (SValue name attrs k (String a acc)) r
      end
  end.
Definition html_tokens (s : string) : option (list html_token) := html_read (SText "") s.

(** Character references: the five that html.EscapeString produces (and the
    names quot, apos) are replaced; other bytes stand for themselves. *)
Definition char_refs : list (string * ascii) :=
  [("&amp;", "&"%char); ("&lt;", "<"%char); ("&gt;", ">"%char); ("&quot;", dquote); ("&apos;", "'"%char);
   ("&#34;", dquote); ("&#39;", "'"%char)].
Fixpoint ref_at (l : list (string * ascii)) (s : string) : option (ascii * string) :=
  match l with
  | [] => None
  | (r, c) :: l' =>
      if String.prefix r s then Some (c, substring (String.length r) (String.length s - String.length r) s)
      else ref_at l' s
  end.
(** [html_decodes s t]: [t] is [s] with its character references replaced. *)
Inductive html_decodes : string -> string -> Prop :=
| hd_nil : html_decodes "" ""
| hd_ref s c rest t : ref_at char_refs s = Some (c, rest) -> html_decodes rest t -> html_decodes s (String c t)
| hd_byte a s t : ref_at char_refs (String a s) = None -> html_decodes s t ->
    html_decodes (String a s) (String a t).

(** ** UTF-8 (RFC 3629, section 4) *)
Definition byte_in (lo hi : N) (a : ascii) : Prop := (lo <= N_of_ascii a <= hi)%N.
Inductive utf8 : string -> Prop :=
| u8_nil : utf8 ""
| u8_1 a s : byte_in 0 127 a -> utf8 s -> utf8 (String a s)
| u8_2 a b s : byte_in 194 223 a -> byte_in 128 191 b -> utf8 s -> utf8 (String a (String b s))
| u8_3 a b c s :
    (N_of_ascii a = 224%N /\ byte_in 160 191 b) \/ (byte_in 225 236 a /\ byte_in 128 191 b) \/
    (N_of_ascii a = 237%N /\ byte_in 128 159 b) \/ (byte_in 238 239 a /\ byte_in 128 191 b) ->
    byte_in 128 191 c -> utf8 s -> utf8 (String a (String b (String c s)))
| u8_4 a b c d s :
    (N_of_ascii a = 240%N /\ byte_in 144 191 b) \/ (byte_in 241 243 a /\ byte_in 128 191 b) \/
    (N_of_ascii a = 244%N /\ byte_in 128 143 b) ->
    byte_in 128 191 c -> byte_in 128 191 d -> utf8 s ->
    utf8 (String a (String b (String c (String d s)))).

(** A string as a reader of UTF-8 sees it: every byte that does not belong to a
    well-formed sequence is replaced by U+FFFD (bytes EF BF BD). *)
Definition fffd : string := String "239" (String "191" (String "189" "")).
Inductive repaired : string -> string -> Prop :=
| rp_nil : repaired "" ""
| rp_seq c s t : c <> "" -> utf8 c -> (forall x y, c = (x ++ y)%string -> utf8 x -> x = "" \/ y = "") ->
    repaired s t -> repaired (c ++ s) (c ++ t)
| rp_bad a s t : (forall c s', String a s = (c ++ s')%string -> utf8 c -> c = "") ->
    repaired s t -> repaired (String a s) (fffd ++ t).

(** The document of form_post mode: a form that posts to [uri], with one hidden
    input per parameter (in some order), whose value decodes to the parameter's
    value, and no other markup. *)
Definition posts_form (doc uri : string) (params : kvs) : Prop :=
  exists ordered raw : kvs,
    Permutation ordered params /\
    Forall2 (fun r p => fst r = fst p /\ html_decodes (snd r) (snd p)) raw ordered /\
    html_tokens doc = Some
      ([HOpen "html" []; HOpen "head" []; HOpen "title" []; HText "Submit This Form"; HClose "title"; HClose "head";
        HOpen "body" [("onload", "javascript:document.forms[0].submit()")];
        HOpen "form" [("method", "post"); ("action", uri)]]
       ++ map (fun r => HOpen "input" [("type", "hidden"); ("name", fst r); ("value", snd r)]) raw
       ++ [HClose "form"; HClose "body"; HClose "html"])%list.
