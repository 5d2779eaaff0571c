(** * encoding/json: unmarshalling.

    White space, string literals and digits as JsonFull.v (golang-jwt) and JsonTree.v
    (authorization/request.go:106-111 [DecodeRequest]) use them, and a reader of the
    documents goidc itself writes: null, booleans, 64-bit integers, strings and objects with
    arbitrary white space (for anything else its answer is [None]). *)
From Verif Require Import GoStr Codec Json Core.

(** Insignificant white space. *)
Fixpoint jskip (s : string) : string :=
  match s with
  | String a r =>
      let n := nb a in
      if (N.eqb n 32 || N.eqb n 9 || N.eqb n 10 || N.eqb n 13)%bool then jskip r else s
  | EmptyString => ""
  end.

(** utf8.EncodeRune for a code point that is not a surrogate. *)
Definition byte (n : N) : ascii := ascii_of_N n.
Definition utf8_bytes (n : N) : string :=
  (if N.ltb n 128 then String (byte n) ""
   else if N.ltb n 2048 then String (byte (192 + n / 64)) (String (byte (128 + n mod 64)) "")
   else if N.ltb n 65536 then
     String (byte (224 + n / 4096)) (String (byte (128 + (n / 64) mod 64)) (String (byte (128 + n mod 64)) ""))
   else String (byte (240 + n / 262144)) (String (byte (128 + (n / 4096) mod 64))
          (String (byte (128 + (n / 64) mod 64)) (String (byte (128 + n mod 64)) ""))))%N.
Definition replacement : string := utf8_bytes 65533.

(** Four hexadecimal digits. *)
Definition hex4_val (s : string) : option (N * string) :=
  match s with
  | String a (String b (String c (String d r))) =>
      match hex_val a, hex_val b, hex_val c, hex_val d with
      | Some w, Some x, Some y, Some z => Some (((w * 16 + x) * 16 + y) * 16 + z, r)%N
      | _, _, _, _ => None
      end
  | _ => None
  end.

Definition is_high (n : N) : bool := (N.leb 55296 n && N.ltb n 56320)%bool.
Definition is_low (n : N) : bool := (N.leb 56320 n && N.ltb n 57344)%bool.

(** After a backslash and a 'u': a code point, a surrogate pair, or a lone
    surrogate (read as U+FFFD). *)
Definition junicode (s : string) : option (string * string) :=
  match hex4_val s with
  | None => None
  | Some (n, r) =>
      if is_high n then
        match r with
        | String b (String u r1) =>
            if (Ascii.eqb b backslash && Ascii.eqb u "u")%bool then
              match hex4_val r1 with
              | Some (m, r2) =>
                  if is_low m then Some (utf8_bytes (65536 + (n - 55296) * 1024 + (m - 56320)), r2)%N
                  else Some (replacement, r)
              | None => Some (replacement, r)
              end
            else Some (replacement, r)
        | _ => Some (replacement, r)
        end
      else if is_low n then Some (replacement, r)
      else Some (utf8_bytes n, r)
  end.

(** One character inside a string literal: its bytes, or the closing quote. *)
Definition jchar (s : string) : option (option string * string) :=
  match s with
  | EmptyString => None
  | String a r =>
      if Ascii.eqb a dquote then Some (None, r)
      else if Ascii.eqb a backslash then
        match r with
        | EmptyString => None
        | String b r1 =>
            if (Ascii.eqb b dquote || Ascii.eqb b backslash || Ascii.eqb b "/")%bool then Some (Some (String b ""), r1)
            else if Ascii.eqb b "b" then Some (Some (String (byte 8) ""), r1)
            else if Ascii.eqb b "f" then Some (Some (String (byte 12) ""), r1)
            else if Ascii.eqb b "n" then Some (Some (String (byte 10) ""), r1)
            else if Ascii.eqb b "r" then Some (Some (String (byte 13) ""), r1)
            else if Ascii.eqb b "t" then Some (Some (String (byte 9) ""), r1)
            else if Ascii.eqb b "u" then
              match junicode r1 with Some (t, r2) => Some (Some t, r2) | None => None end
            else None
        end
      else if N.ltb (nb a) 32 then None
      else if N.ltb (nb a) 128 then Some (Some (String a ""), r)
      else match r with
           | String b r2 =>
               if utf8_2 a b then Some (Some (String a (String b "")), r2)
               else match r2 with
                    | String c r3 =>
                        if utf8_3 a b c then Some (Some (String a (String b (String c ""))), r3)
                        else match r3 with
                             | String d r4 =>
                                 if utf8_4 a b c d
                                 then Some (Some (String a (String b (String c (String d "")))), r4)
                                 else Some (Some replacement, r)
                             | _ => Some (Some replacement, r)
                             end
                    | _ => Some (Some replacement, r)
                    end
           | _ => Some (Some replacement, r)
           end
  end.

(** A string literal after its opening quote.  [n] bounds the number of
    characters; every character takes at least one byte. *)
Fixpoint jstr (n : nat) (s : string) : option (string * string) :=
  match n with
  | O => None
  | S n' =>
      match jchar s with
      | None => None
      | Some (None, r) => Some ("", r)
      | Some (Some b, r) =>
          match jstr n' r with
          | Some (t, r') => Some (b ++ t, r')
          | None => None
          end
      end
  end.
Definition jliteral (s : string) : option (string * string) := jstr (S (String.length s)) s.

(** An integer: no leading zeros, within 64 bits, not the start of a fraction. *)
Fixpoint span_digits (s : string) : string * string :=
  match s with
  | String a r => if is_digit a then let '(d, t) := span_digits r in (String a d, t) else ("", s)
  | EmptyString => ("", "")
  end.
Definition jint (s : string) : option (Z * string) :=
  let '(sign, body) := match s with String "-" r => ("-", r) | _ => ("", s) end in
  let '(digits, r) := span_digits body in
  let ok := match digits with
            | EmptyString => false
            | String a EmptyString => true
            | String a _ => negb (Ascii.eqb a "0")
            end in
  let stop := match r with
              | String a _ => negb (Ascii.eqb a "." || Ascii.eqb a "e" || Ascii.eqb a "E")
              | EmptyString => true
              end in
  if (ok && stop)%bool then match atoi (sign ++ digits) with Some z => Some (z, r) | None => None end
  else None.

Definition jword (w : string) (v : json) (s : string) : option (json * string) :=
  if String.prefix w s then Some (v, substring (String.length w) (String.length s - String.length w) s) else None.

(** Values; [n] bounds nesting and the number of members. *)
Fixpoint jvalue (n : nat) (s : string) : option (json * string) :=
  match n with
  | O => None
  | S n' =>
      match jskip s with
      | EmptyString => None
      | String a r =>
          if Ascii.eqb a dquote then
            match jliteral r with Some (t, r') => Some (JSString t, r') | None => None end
          else if Ascii.eqb a "{" then
            match jskip r with
            | String b r' =>
                if Ascii.eqb b "}" then Some (JSObj [], r')
                else match jmembers n' (String b r') with
                     | Some (l, r2) => Some (JSObj l, r2)
                     | None => None
                     end
            | EmptyString => None
            end
          else if Ascii.eqb a "n" then jword "null" JSNull (String a r)
          else if Ascii.eqb a "t" then jword "true" (JSBool true) (String a r)
          else if Ascii.eqb a "f" then jword "false" (JSBool false) (String a r)
          else match jint (String a r) with Some (z, r') => Some (JSInt z, r') | None => None end
      end
  end
with jmembers (n : nat) (s : string) : option (list (string * json) * string) :=
  match n with
  | O => None
  | S n' =>
      match jskip s with
      | String q r =>
          if Ascii.eqb q dquote then
            match jliteral r with
            | None => None
            | Some (k, r1) =>
                match jskip r1 with
                | String c r2 =>
                    if Ascii.eqb c ":" then
                      match jvalue n' r2 with
                      | None => None
                      | Some (v, r3) =>
                          match jskip r3 with
                          | String e r4 =>
                              if Ascii.eqb e "}" then Some ([(k, v)], r4)
                              else if Ascii.eqb e "," then
                                match jmembers n' r4 with
                                | Some (l, r5) => Some ((k, v) :: l, r5)
                                | None => None
                                end
                              else None
                          | EmptyString => None
                          end
                      end
                    else None
                | EmptyString => None
                end
            end
          else None
      | EmptyString => None
      end
  end.

(** A whole document. *)
Definition jparse (s : string) : option json :=
  match jvalue (S (String.length s)) s with
  | Some (v, r) => if jskip r =s? "" then Some v else None
  | None => None
  end.

(** ** What a client reads in a document: the last member with that name; a missing member or
    one of another type counts as empty. *)
Fixpoint field (k : string) (l : list (string * json)) : option json :=
  match l with
  | [] => None
  | (k', v) :: r => match field k r with
                    | Some x => Some x
                    | None => if k =s? k' then Some v else None
                    end
  end.
Definition str_field (k : string) (l : list (string * json)) : string :=
  match field k l with Some (JSString s) => s | _ => "" end.
Definition int_field (k : string) (l : list (string * json)) : Z :=
  match field k l with Some (JSInt z) => z | _ => 0%Z end.
