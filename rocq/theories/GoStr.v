(** * Go string primitives used by goidc.

    Go strings are byte strings; they are modelled by Coq's [string]
    (a list of 8-bit [ascii]).  Everything in this file models functions of
    Go's standard library at the points where /repo calls them; each comment
    names the call sites. *)
From Coq Require Export String Ascii List ZArith Bool.
From Coq Require Import DecimalString DecimalZ Decimal.
Export ListNotations.
Open Scope string_scope.

(** [s == t] on Go strings. *)
Definition seqb (a b : string) : bool := String.eqb a b.
Notation "a =s? b" := (seqb a b) (at level 70, no associativity).

(** [len(s)], in bytes: authorization_endpoint.go:407,487,504. *)
Definition slen (s : string) : Z := Z.of_nat (String.length s).

(** [strings.Split(s, sep)] for a one-byte separator:
    scope/util.go:14-16, prompt/util.go:28-30, flow/flow.go:64,
    resource_protector.go:58, pkce/crypto.go:22.  The result is never empty;
    [Split("", " ")] is [[""]]. *)
Fixpoint split_on (c : ascii) (s : string) : list string :=
  match s with
  | EmptyString => [""]
  | String a s' =>
      if Ascii.eqb a c then "" :: split_on c s'
      else match split_on c s' with
           | [] => [String a ""]            (* unreachable *)
           | w :: ws => String a w :: ws
           end
  end.

(** [strings.Join(list, sep)]: scope/util.go:40,60, flow/flow.go:66,
    oauth_error/errors.go:182. *)
Fixpoint join (sep : string) (l : list string) : string :=
  match l with
  | [] => ""
  | [w] => w
  | w :: ws => w ++ sep ++ join sep ws
  end.

(** [sort.Strings(list)]: scope/util.go:59, flow/flow.go:65.  Go compares
    strings bytewise; since that is a total order the sorted list is unique and
    any sorting algorithm models it (here: insertion sort). *)
Definition sle (a b : string) : bool :=
  match String.compare a b with Gt => false | _ => true end.

Fixpoint sinsert (x : string) (l : list string) : list string :=
  match l with
  | [] => [x]
  | y :: ys => if sle x y then x :: y :: ys else y :: sinsert x ys
  end.

Fixpoint ssort (l : list string) : list string :=
  match l with
  | [] => []
  | x :: xs => sinsert x (ssort xs)
  end.

(** [strings.HasSuffix]: id_token/id_token.go:16-24. *)
Fixpoint has_suffix (suf s : string) : bool :=
  if s =s? suf then true
  else match s with
       | EmptyString => false
       | String _ s' => has_suffix suf s'
       end.

(** [strings.HasPrefix]. *)
Fixpoint has_prefix (pre s : string) : bool :=
  match pre, s with
  | EmptyString, _ => true
  | String a p', String b s' => Ascii.eqb a b && has_prefix p' s'
  | String _ _, EmptyString => false
  end.

(** [strings.Cut(s, c)] for a one-byte separator: part before the first
    separator, part after it, and whether there was one. *)
Fixpoint cut (c : ascii) (s : string) : string * string * bool :=
  match s with
  | EmptyString => ("", "", false)
  | String a s' =>
      if Ascii.eqb a c then ("", s', true)
      else let '(x, y, f) := cut c s' in (String a x, y, f)
  end.

(** Does the byte occur in the string? *)
Fixpoint has_byte (c : ascii) (s : string) : bool :=
  match s with
  | EmptyString => false
  | String a s' => Ascii.eqb a c || has_byte c s'
  end.

(** [strings.ToLower] restricted to ASCII letters.  Only used for the
    comparison [strings.ToLower(parts[0]) != "bearer"]
    (resource_protector.go:62) and net/http's case-insensitive "Basic " prefix.
    For those comparisons the restriction is exact: the only non-ASCII runes
    whose lower case is ASCII are U+0130 ('i') and U+212A ('k'), and neither
    letter occurs in "bearer"; net/http compares "Basic " with ASCII folding. *)
Definition lower_byte (a : ascii) : ascii :=
  let n := N_of_ascii a in
  if (N.leb 65 n && N.leb n 90)%bool then ascii_of_N (n + 32) else a.

Fixpoint to_lower (s : string) : string :=
  match s with
  | EmptyString => ""
  | String a s' => String (lower_byte a) (to_lower s')
  end.

(** Byte classes. *)
Definition is_digit (a : ascii) : bool :=
  let n := N_of_ascii a in (N.leb 48 n && N.leb n 57)%bool.

Definition is_alpha (a : ascii) : bool :=
  let n := N_of_ascii a in
  ((N.leb 65 n && N.leb n 90) || (N.leb 97 n && N.leb n 122))%bool.

(** [fmt.Sprintf("%d", z)]: resource_protector.go:235,
    authorization_endpoint.go:335,350,498,515,1118,1221. *)
Definition itoa (z : Z) : string := NilEmpty.string_of_int (Z.to_int z).

(** ** 64-bit integers.  Go's [int64] (and [int] on 64-bit platforms)
    arithmetic wraps around; [wrap64] is the wrap. *)
Definition two63 : Z := 9223372036854775808%Z.
Definition two64 : Z := 18446744073709551616%Z.
Definition wrap64 (z : Z) : Z := ((z + two63) mod two64 - two63)%Z.
Definition add64 (a b : Z) : Z := wrap64 (a + b).
Definition sub64 (a b : Z) : Z := wrap64 (a - b).
Definition is_int64 (z : Z) : bool := ((- two63 <=? z) && (z <? two63))%Z.

(** [strconv.Atoi]: authorization_endpoint.go:311.  Optional sign, at least one
    decimal digit, nothing else, value representable in 64 bits. *)
Fixpoint digits_val (acc : Z) (s : string) : option Z :=
  match s with
  | EmptyString => Some acc
  | String a s' =>
      if is_digit a
      then digits_val (acc * 10 + (Z.of_N (N_of_ascii a) - 48))%Z s'
      else None
  end.

Definition atoi (s : string) : option Z :=
  let '(neg, body) :=
    match s with
    | String "-" r => (true, r)
    | String "+" r => (false, r)
    | _ => (false, s)
    end in
  if body =s? "" then None
  else match digits_val 0 body with
       | None => None
       | Some v => let z := if neg then (- v)%Z else v in
                   if is_int64 z then Some z else None
       end.

(** [strconv.Quote] (resource_protector.go:96, oauth_error/errors.go:173-181).
    Exact for ASCII input.  Simplification: bytes >= 0x80 are kept as they are,
    which is Go's result for valid UTF-8 made of printable runes; Go would
    escape unprintable runes and invalid UTF-8. *)
Definition hex_digit_lower (n : N) : ascii :=
  ascii_of_N (if N.ltb n 10 then n + 48 else n + 87)%N.

Definition backslash : ascii := "092".
Definition dquote : ascii := "034".

Definition quote_byte (a : ascii) : string :=
  let n := N_of_ascii a in
  if N.eqb n 34 then String backslash (String dquote "")
  else if N.eqb n 92 then String backslash (String backslash "")
  else if N.eqb n 7 then String backslash "a"
  else if N.eqb n 8 then String backslash "b"
  else if N.eqb n 12 then String backslash "f"
  else if N.eqb n 10 then String backslash "n"
  else if N.eqb n 13 then String backslash "r"
  else if N.eqb n 9 then String backslash "t"
  else if N.eqb n 11 then String backslash "v"
  else if (N.ltb n 32 || N.eqb n 127)%bool
       then String backslash
              (String "x" (String (hex_digit_lower (n / 16))
                             (String (hex_digit_lower (n mod 16)) "")))
  else String a "".

Fixpoint concat_map (f : ascii -> string) (s : string) : string :=
  match s with
  | EmptyString => ""
  | String a s' => f a ++ concat_map f s'
  end.

Definition go_quote (s : string) : string :=
  String dquote (concat_map quote_byte s ++ String dquote "").
