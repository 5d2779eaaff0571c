(** * Vocabulary: PEM texts (RFC 1421, RFC 7468) and the base64 in them (RFC 4648, 4).

    These definitions model no code of /repo. *)
From Verif Require Import GoStr.

(** ** base64.  Characters stand for six bits each; four of them for three bytes. *)
Definition pem_alphabet : list ascii :=
  list_ascii_of_string "ABCDEFGHIJKLMNOPQRSTUVWXYZabcdefghijklmnopqrstuvwxyz0123456789+/".
Definition sixbits (a : ascii) (n : N) : Prop := nth_error pem_alphabet (N.to_nat n) = Some a.
Inductive base64 : string -> string -> Prop :=
| b64_nil : base64 "" ""
| b64_one a b p q x rest : sixbits a p -> sixbits b q -> (rest < 16)%N ->
    (p * 64 + q = N_of_ascii x * 16 + rest)%N ->
    base64 (String a (String b "==")) (String x "")
| b64_two a b c p q r x y rest : sixbits a p -> sixbits b q -> sixbits c r -> (rest < 4)%N ->
    ((p * 64 + q) * 64 + r = (N_of_ascii x * 256 + N_of_ascii y) * 4 + rest)%N ->
    base64 (String a (String b (String c "="))) (String x (String y ""))
| b64_three a b c d p q r t x y z s bytes : sixbits a p -> sixbits b q -> sixbits c r -> sixbits d t ->
    (((p * 64 + q) * 64 + r) * 64 + t = (N_of_ascii x * 256 + N_of_ascii y) * 256 + N_of_ascii z)%N ->
    base64 s bytes ->
    base64 (String a (String b (String c (String d s)))) (String x (String y (String z bytes))).

(** ** Texts *)
Definition LF : string := String "010" "".
Definition is_blank (a : ascii) : Prop := a = " "%char \/ a = "009"%char.
Definition only_blanks (s : string) : Prop := forall a, In a (list_ascii_of_string s) -> is_blank a.
Definition unbroken (s : string) : Prop := ~ In "010"%char (list_ascii_of_string s).
Definition colon_in (s : string) : Prop := In ":"%char (list_ascii_of_string s).
(** What may stand between a line's text and the line feed. *)
Definition line_tail (s : string) : Prop := exists b, only_blanks b /\ (s = b \/ s = (b ++ String "013" "")%string).
(** The text [s] starts with a line that is blank. *)
Definition blank_line (s : string) : Prop :=
  only_blanks s \/ exists sp r, line_tail sp /\ s = (sp ++ LF ++ r)%string.
Definition lines (l : list string) : string := String.concat "" (map (fun x => (x ++ LF)%string) l).
(** Without blanks and ends of lines. *)
Definition squeezed (s : string) : string :=
  string_of_list_ascii (filter (fun a => negb (existsb (Ascii.eqb a) [" "; "009"; "010"; "013"]%char)) (list_ascii_of_string s)).

(** [text] is [before] and, from the beginning of a line on, a block: a line
    "-----BEGIN label-----", lines with colons (headers), the base64 text of [bytes], and a
    line "-----END label-----" with the same label; anything may follow.  (Without
    a line between them, the label must have no colon, lest the last line be a header.) *)
Definition pem_block (before label bytes text : string) : Prop :=
  exists sp headers body after,
    text = (before ++ "-----BEGIN " ++ label ++ "-----" ++ sp ++ LF ++
            lines headers ++ body ++ "-----END " ++ label ++ "-----" ++ after)%string /\
    unbroken label /\ line_tail sp /\ blank_line after /\
    Forall (fun h => colon_in h /\ unbroken h) headers /\
    (headers = [] /\ body = "" /\ ~ colon_in label \/ exists b, body = (b ++ LF)%string) /\
    base64 (squeezed body) bytes.
(** A beginning of a text: whole lines, none of which is the first line of a block. *)
Definition no_begin (before : string) : Prop :=
  exists l, before = lines l /\
    Forall (fun x => unbroken x /\ forall y sp, line_tail sp -> x <> ("-----BEGIN " ++ y ++ "-----" ++ sp)%string) l.
Definition line_start (before : string) : Prop := before = "" \/ exists b, before = (b ++ LF)%string.
