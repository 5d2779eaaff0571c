(** * Codecs of Go's standard library used by goidc:
    encoding/base64, net/url query escaping, html escaping. *)
From Verif Require Import GoStr.

(** ** Base64 *)

(** A 6-bit group, most significant bit first. *)
Record sextet := Sx { x5 : bool; x4 : bool; x3 : bool; x2 : bool; x1 : bool; x0 : bool }.

Definition b2n (b : bool) (w : N) : N := if b then w else 0%N.
Definition sx_val (s : sextet) : N :=
  (b2n (x5 s) 32 + b2n (x4 s) 16 + b2n (x3 s) 8 + b2n (x2 s) 4 + b2n (x1 s) 2 + b2n (x0 s) 1)%N.

(** Alphabets: StdEncoding "A-Za-z0-9+/" and URLEncoding "A-Za-z0-9-_". *)
Inductive b64alpha := B64Std | B64Url.

Definition sx_char (al : b64alpha) (s : sextet) : ascii :=
  let v := sx_val s in
  if N.ltb v 26 then ascii_of_N (v + 65)
  else if N.ltb v 52 then ascii_of_N (v - 26 + 97)
  else if N.ltb v 62 then ascii_of_N (v - 52 + 48)
  else if N.eqb v 62 then (match al with B64Std => "+" | B64Url => "-" end)%char
  else (match al with B64Std => "/" | B64Url => "_" end)%char.

Definition n_sx (v : N) : sextet :=
  Sx (N.testbit v 5) (N.testbit v 4) (N.testbit v 3)
     (N.testbit v 2) (N.testbit v 1) (N.testbit v 0).

Definition char_sx (al : b64alpha) (c : ascii) : option sextet :=
  let n := N_of_ascii c in
  if (N.leb 65 n && N.leb n 90)%bool then Some (n_sx (n - 65))
  else if (N.leb 97 n && N.leb n 122)%bool then Some (n_sx (n - 97 + 26))
  else if (N.leb 48 n && N.leb n 57)%bool then Some (n_sx (n - 48 + 52))
  else match al with
       | B64Std => if N.eqb n 43 then Some (n_sx 62) else if N.eqb n 47 then Some (n_sx 63) else None
       | B64Url => if N.eqb n 45 then Some (n_sx 62) else if N.eqb n 95 then Some (n_sx 63) else None
       end.

(** Coq's [Ascii] lists bits least significant first. *)
Definition sx_1 (a : ascii) : sextet :=
  let 'Ascii a0 a1 a2 a3 a4 a5 a6 a7 := a in Sx a7 a6 a5 a4 a3 a2.
Definition sx_2 (a b : ascii) : sextet :=
  let 'Ascii a0 a1 _ _ _ _ _ _ := a in
  let 'Ascii b0 b1 b2 b3 b4 b5 b6 b7 := b in Sx a1 a0 b7 b6 b5 b4.
Definition sx_3 (b c : ascii) : sextet :=
  let 'Ascii b0 b1 b2 b3 _ _ _ _ := b in
  let 'Ascii c0 c1 c2 c3 c4 c5 c6 c7 := c in Sx b3 b2 b1 b0 c7 c6.
Definition sx_4 (c : ascii) : sextet :=
  let 'Ascii c0 c1 c2 c3 c4 c5 c6 c7 := c in Sx c5 c4 c3 c2 c1 c0.

Definition nul : ascii := "000".

(** [base64.{Std,URL}Encoding.EncodeToString]:
    pkce/crypto.go:21, basic_auth/util.go:11, id_token/id_token.go:18-24,
    authorization/request.go:103. *)
Fixpoint b64_encode (al : b64alpha) (s : string) : string :=
  match s with
  | String a (String b (String c s')) =>
      String (sx_char al (sx_1 a)) (String (sx_char al (sx_2 a b))
        (String (sx_char al (sx_3 b c)) (String (sx_char al (sx_4 c)) (b64_encode al s'))))
  | String a (String b EmptyString) =>
      String (sx_char al (sx_1 a)) (String (sx_char al (sx_2 a b))
        (String (sx_char al (sx_3 b nul)) (String "=" "")))
  | String a EmptyString =>
      String (sx_char al (sx_1 a)) (String (sx_char al (sx_2 a nul)) (String "=" (String "=" "")))
  | EmptyString => ""
  end.

Definition byte_a (s t : sextet) : ascii := Ascii (x4 t) (x5 t) (x0 s) (x1 s) (x2 s) (x3 s) (x4 s) (x5 s).
Definition byte_b (t u : sextet) : ascii := Ascii (x2 u) (x3 u) (x4 u) (x5 u) (x0 t) (x1 t) (x2 t) (x3 t).
Definition byte_c (u v : sextet) : ascii := Ascii (x0 v) (x1 v) (x2 v) (x3 v) (x4 v) (x5 v) (x0 u) (x1 u).

(** Go's decoder skips '\r' and '\n'. *)
Fixpoint strip_nl (s : string) : string :=
  match s with
  | EmptyString => ""
  | String a s' =>
      let n := N_of_ascii a in
      if (N.eqb n 10 || N.eqb n 13)%bool then strip_nl s' else String a (strip_nl s')
  end.

(** Padded, non-strict decoding of one quantum after another (trailing bits of
    the last quantum are ignored, as Go does without [Strict()]). *)
Fixpoint b64_quanta (al : b64alpha) (s : string) : option string :=
  match s with
  | EmptyString => Some ""
  | String a (String b (String c (String d s'))) =>
      match char_sx al a, char_sx al b with
      | Some p, Some q =>
          if Ascii.eqb c "=" then
            if (Ascii.eqb d "=" && (s' =s? ""))%bool
            then Some (String (byte_a p q) "") else None
          else match char_sx al c with
               | None => None
               | Some r =>
                   if Ascii.eqb d "=" then
                     if s' =s? "" then Some (String (byte_a p q) (String (byte_b q r) "")) else None
                   else match char_sx al d, b64_quanta al s' with
                        | Some t, Some rest =>
                            Some (String (byte_a p q) (String (byte_b q r) (String (byte_c r t) rest)))
                        | _, _ => None
                        end
               end
      | _, _ => None
      end
  | _ => None
  end.

(** [base64.{Std,URL}Encoding.DecodeString]: net/http's BasicAuth,
    authorization/request.go:107. *)
Definition b64_decode (al : b64alpha) (s : string) : option string :=
  b64_quanta al (strip_nl s).

(** ** net/url query escaping *)

Definition unreserved (a : ascii) : bool :=
  (is_alpha a || is_digit a || Ascii.eqb a "-" || Ascii.eqb a "_"
   || Ascii.eqb a "." || Ascii.eqb a "~")%bool.

Definition hex_upper (n : N) : ascii :=
  ascii_of_N (if N.ltb n 10 then n + 48 else n + 55)%N.

(** [url.QueryEscape]: basic_auth/util.go:10; and inside [Values.Encode]. *)
Definition qescape_byte (a : ascii) : string :=
  if unreserved a then String a ""
  else if Ascii.eqb a " " then "+"
  else let n := N_of_ascii a in
       String "%" (String (hex_upper (n / 16)) (String (hex_upper (n mod 16)) "")).

Definition qescape (s : string) : string := concat_map qescape_byte s.

Definition hex_val (a : ascii) : option N :=
  let n := N_of_ascii a in
  if (N.leb 48 n && N.leb n 57)%bool then Some (n - 48)%N
  else if (N.leb 65 n && N.leb n 70)%bool then Some (n - 55)%N
  else if (N.leb 97 n && N.leb n 102)%bool then Some (n - 87)%N
  else None.

(** [url.QueryUnescape]: what a client applies to the parameters it receives. *)
Fixpoint qunescape (s : string) : option string :=
  match s with
  | EmptyString => Some ""
  | String a s' =>
      if Ascii.eqb a "%" then
        match s' with
        | String h (String l r) =>
            match hex_val h, hex_val l, qunescape r with
            | Some x, Some y, Some t => Some (String (ascii_of_N (x * 16 + y)) t)
            | _, _, _ => None
            end
        | _ => None
        end
      else match qunescape s' with
           | None => None
           | Some t => Some (String (if Ascii.eqb a "+" then " "%char else a) t)
           end
  end.

(** A Go [map[string]string] with the keys it was filled with; [kv_set] is map
    assignment (later assignments to the same key win). *)
Definition kvs := list (string * string).

Fixpoint kv_get (k : string) (m : kvs) : option string :=
  match m with
  | [] => None
  | (k', v) :: r => if k =s? k' then Some v else kv_get k r
  end.

Fixpoint kv_set (k v : string) (m : kvs) : kvs :=
  match m with
  | [] => [(k, v)]
  | (k', v') :: r => if k =s? k' then (k, v) :: r else (k', v') :: kv_set k v r
  end.

Fixpoint kv_insert (x : string * string) (l : kvs) : kvs :=
  match l with
  | [] => [x]
  | y :: ys => if sle (fst x) (fst y) then x :: y :: ys else y :: kv_insert x ys
  end.

Fixpoint kv_sort (l : kvs) : kvs :=
  match l with
  | [] => []
  | x :: xs => kv_insert x (kv_sort xs)
  end.

(** [url.Values.Encode] for values with one entry per key
    (authorization/response.go:85,98; oauth_error/errors.go:196): keys sorted,
    "k=v" escaped and joined with '&'. *)
Definition enc_pair (p : string * string) : string := qescape (fst p) ++ "=" ++ qescape (snd p).
Definition values_encode (m : kvs) : string := join "&" (map enc_pair (kv_sort m)).

(** [url.ParseQuery]: what a client does with the query (or fragment). [None]
    is a malformed escape or a component containing ';' (both are errors in Go).
    Empty components are skipped, as in Go. *)
Fixpoint parse_pairs (l : list string) : option kvs :=
  match l with
  | [] => Some []
  | w :: ws =>
      if w =s? "" then parse_pairs ws
      else if has_byte ";" w then None
      else let '(k, v, _) := cut "=" w in
           match qunescape k, qunescape v, parse_pairs ws with
           | Some k', Some v', Some r => Some ((k', v') :: r)
           | _, _, _ => None
           end
  end.

Definition parse_query (q : string) : option kvs := parse_pairs (split_on "&" q).

(** ** html.EscapeString: authorization/response.go:129. *)
Definition hescape_byte (a : ascii) : string :=
  if Ascii.eqb a "&" then "&amp;"
  else if Ascii.eqb a "'" then "&#39;"
  else if Ascii.eqb a "<" then "&lt;"
  else if Ascii.eqb a ">" then "&gt;"
  else if Ascii.eqb a dquote then "&#34;"
  else String a "".

Definition hescape (s : string) : string := concat_map hescape_byte s.
