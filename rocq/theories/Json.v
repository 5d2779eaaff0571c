(** * encoding/json, as far as goidc uses it.

    Marshalling of strings, integers, booleans and flat objects
    (oauth_error/errors.go:154-166, grant/interface.go:41-48,
    authorization/request.go:101-104, log/text.go:146).  The parser used for
    unmarshalling is in JsonParse.v. *)
From Verif Require Import GoStr.

Definition nb (a : ascii) : N := N_of_ascii a.
Definition in_range (lo hi : N) (a : ascii) : bool := (N.leb lo (nb a) && N.leb (nb a) hi)%bool.
Definition is_cont (a : ascii) : bool := in_range 128 191 a.

(** unicode/utf8 well-formedness tables ([utf8.DecodeRuneInString]). *)
Definition utf8_2 (a b : ascii) : bool := (in_range 194 223 a && is_cont b)%bool.
Definition utf8_3 (a b c : ascii) : bool :=
  (((Ascii.eqb a "224" && in_range 160 191 b)
    || (in_range 225 236 a && is_cont b)
    || (Ascii.eqb a "237" && in_range 128 159 b)
    || (in_range 238 239 a && is_cont b)) && is_cont c)%bool.
Definition utf8_4 (a b c d : ascii) : bool :=
  (((Ascii.eqb a "240" && in_range 144 191 b)
    || (in_range 241 243 a && is_cont b)
    || (Ascii.eqb a "244" && in_range 128 143 b)) && is_cont c && is_cont d)%bool.

Definition hex4 (h1 h2 h3 h4 : ascii) : string :=
  String backslash (String "u" (String h1 (String h2 (String h3 (String h4 ""))))).

(** One ASCII byte inside a JSON string, [json.Marshal]'s default HTML-safe
    escaping.  (Go < 1.22 writes control bytes 8 and 12 as \u0008, \u000c as
    here; newer releases write \b and \f.  Both decode to the same byte.) *)
Definition jesc_ascii (a : ascii) : string :=
  let n := nb a in
  if N.eqb n 34 then String backslash (String dquote "")
  else if N.eqb n 92 then String backslash (String backslash "")
  else if N.eqb n 10 then String backslash "n"
  else if N.eqb n 13 then String backslash "r"
  else if N.eqb n 9 then String backslash "t"
  else if (N.ltb n 32 || N.eqb n 60 || N.eqb n 62 || N.eqb n 38)%bool
       then hex4 "0" "0" (hex_digit_lower (n / 16)) (hex_digit_lower (n mod 16))
  else String a "".

Definition ufffd : string := hex4 "f" "f" "f" "d".

(** U+2028 and U+2029 (bytes E2 80 A8, E2 80 A9) are escaped as well. *)
Definition jesc_3 (a b c : ascii) : string :=
  if (Ascii.eqb a "226" && Ascii.eqb b "128" && Ascii.eqb c "168")%bool then hex4 "2" "0" "2" "8"
  else if (Ascii.eqb a "226" && Ascii.eqb b "128" && Ascii.eqb c "169")%bool then hex4 "2" "0" "2" "9"
  else String a (String b (String c "")).

(** The body of a JSON string; invalid UTF-8 bytes become \ufffd. *)
Fixpoint jescape (s : string) : string :=
  match s with
  | EmptyString => ""
  | String a s1 =>
      if N.ltb (nb a) 128 then jesc_ascii a ++ jescape s1
      else match s1 with
           | EmptyString => ufffd
           | String b s2 =>
               if utf8_2 a b then String a (String b (jescape s2))
               else match s2 with
                    | EmptyString => ufffd ++ jescape s1
                    | String c s3 =>
                        if utf8_3 a b c then jesc_3 a b c ++ jescape s3
                        else match s3 with
                             | EmptyString => ufffd ++ jescape s1
                             | String d s4 =>
                                 if utf8_4 a b c d
                                 then String a (String b (String c (String d (jescape s4))))
                                 else ufffd ++ jescape s1
                             end
                    end
           end
  end.

Definition jstring (s : string) : string := String dquote (jescape s ++ String dquote "").

(** JSON values as [json.Marshal] prints them (no insignificant space). *)
Inductive json :=
| JSNull
| JSBool (b : bool)
| JSInt (z : Z)
| JSString (s : string)
| JSObj (fields : list (string * json)).

Definition sep_cons {A} (sep : string) (f : A -> string) :=
  fix go (l : list A) : string :=
    match l with
    | [] => ""
    | x :: r => sep ++ f x ++ go r
    end.

Fixpoint jprint (v : json) : string :=
  match v with
  | JSNull => "null"
  | JSBool true => "true"
  | JSBool false => "false"
  | JSInt z => itoa z
  | JSString s => jstring s
  | JSObj [] => "{}"
  | JSObj ((k, v1) :: r) =>
      "{" ++ jstring k ++ ":" ++ jprint v1
          ++ sep_cons "," (fun p => jstring (fst p) ++ ":" ++ jprint (snd p)) r ++ "}"
  end.

(** A struct field tagged [omitempty]. *)
Definition omit_empty (k v : string) : list (string * json) :=
  if v =s? "" then [] else [(k, JSString v)].
