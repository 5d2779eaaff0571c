(** * Vocabulary: JSON texts.

    These definitions model no code of /repo: they say what a JSON text is (RFC 8259), which
    characters a string literal stands for, and which number a float64 keeps of a number
    literal (IEEE 754). *)
From Verif Require Import GoStr Json JsonFull Spec CodecSpec HttpSpec.

(** ** UTF-8 (RFC 3629, 3): the bytes of a character with the code point [n]: the shortest
    form, and no surrogates. *)
Definition between (lo hi n : N) : Prop := (lo <= n <= hi)%N.
Definition surrogate (n : N) : Prop := between 0xD800 0xDFFF n.
Definition lead (mark : N) (a : ascii) (x : N) : Prop := N_of_ascii a = (mark + x)%N.
Inductive character : string -> N -> Prop :=
| cp_1 a n : lead 0 a n -> (n < 0x80)%N -> character (String a "") n
| cp_2 a b x y n : lead 0xC0 a x -> (x < 0x20)%N -> lead 0x80 b y -> (y < 0x40)%N ->
    n = (x * 0x40 + y)%N -> (0x80 <= n)%N -> character (String a (String b "")) n
| cp_3 a b c x y z n : lead 0xE0 a x -> (x < 0x10)%N -> lead 0x80 b y -> (y < 0x40)%N -> lead 0x80 c z -> (z < 0x40)%N ->
    n = ((x * 0x40 + y) * 0x40 + z)%N -> (0x800 <= n)%N -> ~ surrogate n ->
    character (String a (String b (String c ""))) n
| cp_4 a b c d x y z u n : lead 0xF0 a x -> (x < 0x08)%N -> lead 0x80 b y -> (y < 0x40)%N -> lead 0x80 c z -> (z < 0x40)%N ->
    lead 0x80 d u -> (u < 0x40)%N -> n = (((x * 0x40 + y) * 0x40 + z) * 0x40 + u)%N -> between 0x10000 0x10FFFF n ->
    character (String a (String b (String c (String d "")))) n.

(** ** String literals (RFC 8259, 7).  Bytes that are no character and surrogates without
    their other half stand for U+FFFD. *)
Inductive hex4 : string -> N -> Prop :=
| hex4_intro a b c d w x y z : hex_digit a w -> hex_digit b x -> hex_digit c y -> hex_digit d z ->
    hex4 (String a (String b (String c (String d "")))) (w * 0x1000 + x * 0x100 + y * 0x10 + z)%N.
Definition escapes : list (ascii * ascii) :=
  [("034", "034"); ("092", "092"); ("/", "/"); ("b", "008"); ("f", "012"); ("n", "010"); ("r", "013"); ("t", "009")]%char.
Definition u_escape (h s : string) : string := (String "092" (String "u" h) ++ s)%string.
Definition high (n : N) : Prop := between 0xD800 0xDBFF n.
Definition low (n : N) : Prop := between 0xDC00 0xDFFF n.
Inductive chars : string -> string -> Prop :=
| ch_end : chars "" ""
| ch_char c n s t : character c n -> (0x20 <= n)%N -> n <> 34%N -> n <> 92%N -> chars s t -> chars (c ++ s) (c ++ t)
| ch_bad a s t : (forall c n r, String a s = (c ++ r)%string -> ~ character c n) -> chars s t -> chars (String a s) (fffd ++ t)
| ch_escape e b s t : In (e, b) escapes -> chars s t -> chars (String "092" (String e s)) (String b t)
| ch_unicode h n c s t : hex4 h n -> character c n -> chars s t -> chars (u_escape h s) (c ++ t)
| ch_pair h1 n1 h2 n2 c s t : hex4 h1 n1 -> high n1 -> hex4 h2 n2 -> low n2 ->
    character c (0x10000 + (n1 - 0xD800) * 0x400 + (n2 - 0xDC00)) -> chars s t ->
    chars (u_escape h1 (u_escape h2 s)) (c ++ t)
| ch_lone h n s t : hex4 h n -> surrogate n ->
    (high n -> forall h2 n2 r, s = u_escape h2 r -> hex4 h2 n2 -> ~ low n2) -> chars s t -> chars (u_escape h s) (fffd ++ t).

(** ** Numbers (RFC 8259, 6) *)
Definition digits (d : string) : Prop := d <> "" /\ Forall (fun a => In a (list_ascii_of_string "0123456789")) (list_ascii_of_string d).
Definition decimal (d : string) : Z :=
  fold_left (fun acc a => (10 * acc + (Z.of_N (N_of_ascii a) - 48))%Z) (list_ascii_of_string d) 0%Z.
Definition plain_int (d : string) : Prop := digits d /\ (forall r, d = String "0" r -> r = "").
Inductive fraction : string -> string -> Prop :=
| fr_none : fraction "" ""
| fr_some d : digits d -> fraction (String "." d) d.
Inductive exponent : string -> option Z -> Prop :=
| ex_none : exponent "" None
| ex_plain e d : In e ["e"; "E"]%char -> digits d -> exponent (String e d) (Some (decimal d))
| ex_plus e d : In e ["e"; "E"]%char -> digits d -> exponent (String e (String "+" d)) (Some (decimal d))
| ex_minus e d : In e ["e"; "E"]%char -> digits d -> exponent (String e (String "-" d)) (Some (- decimal d)%Z).
(** Sign, integer part, digits of the fraction, exponent. *)
Record number := Number { n_minus : bool; n_int : string; n_frac : string; n_exp : option Z }.
Definition number_text (s : string) (x : number) : Prop :=
  exists f e, s = ((if n_minus x then "-" else "") ++ n_int x ++ f ++ e)%string /\
    plain_int (n_int x) /\ fraction f (n_frac x) /\ exponent e (n_exp x).

(** ** Values (RFC 8259, 2-5) *)
Definition ws (s : string) : Prop := Forall (fun a => In a ["032"; "009"; "010"; "013"]%char) (list_ascii_of_string s).
Inductive rvalue :=
| RNull
| RBool (b : bool)
| RNum (x : number)
| RStr (raw s : string)   (* as written between the quotes, as meant *)
| RArr (l : list rvalue)
| RObj (l : list (string * rvalue)).
Definition quoted (s : string) : string := String "034" (s ++ String "034" "").
Inductive value_text : string -> rvalue -> Prop :=
| vt_null : value_text "null" RNull
| vt_true : value_text "true" (RBool true)
| vt_false : value_text "false" (RBool false)
| vt_num s x : number_text s x -> value_text s (RNum x)
| vt_str s t : chars s t -> value_text (quoted s) (RStr s t)
| vt_arr_0 w : ws w -> value_text ("[" ++ w ++ "]") (RArr [])
| vt_arr s l : elements_text s l -> value_text ("[" ++ s ++ "]") (RArr l)
| vt_obj_0 w : ws w -> value_text ("{" ++ w ++ "}") (RObj [])
| vt_obj s l : members_text s l -> value_text ("{" ++ s ++ "}") (RObj l)
with elements_text : string -> list rvalue -> Prop :=
| el_last w1 s w2 v : ws w1 -> value_text s v -> ws w2 -> elements_text (w1 ++ s ++ w2) [v]
| el_more w1 s w2 v s' l : ws w1 -> value_text s v -> ws w2 -> elements_text s' l ->
    elements_text (w1 ++ s ++ w2 ++ "," ++ s') (v :: l)
with members_text : string -> list (string * rvalue) -> Prop :=
| mb_last m k v : member_text m k v -> members_text m [(k, v)]
| mb_more m k v s' l : member_text m k v -> members_text s' l -> members_text (m ++ "," ++ s') ((k, v) :: l)
with member_text : string -> string -> rvalue -> Prop :=
| mb_intro w1 n k w2 w3 s v w4 : ws w1 -> chars n k -> ws w2 -> ws w3 -> value_text s v -> ws w4 ->
    member_text (w1 ++ quoted n ++ w2 ++ ":" ++ w3 ++ s ++ w4) k v.
Definition json_text (s : string) (v : rvalue) : Prop :=
  exists w1 s' w2, s = (w1 ++ s' ++ w2)%string /\ ws w1 /\ value_text s' v /\ ws w2.

(** How many arrays and objects are inside one another, and how many of them Go puts up with. *)
Fixpoint nesting (x : rvalue) : N :=
  match x with
  | RArr l => N.succ (fold_right N.max 0%N (map nesting l))
  | RObj l => N.succ (fold_right N.max 0%N (map (fun p => nesting (snd p)) l))
  | _ => 0%N
  end.
Definition within_limit (x : rvalue) : Prop := (nesting x <= 10000)%N.
Definition go_text (s : string) (v : rvalue) : Prop := json_text s v /\ within_limit v.

(** ** What Go keeps of a value *)

(** The 64-bit floating point numbers that are not negative, in units of 2^-1074, without a
    largest one; [normal]: the form in which "even" is meant. *)
Definition double (d : Z) : Prop := exists m e, (0 <= m < 2 ^ 53)%Z /\ (0 <= e)%Z /\ d = (m * 2 ^ e)%Z.
Definition normal (d m e : Z) : Prop := d = (m * 2 ^ e)%Z /\ (0 <= m < 2 ^ 53)%Z /\ (0 <= e)%Z /\ (2 ^ 52 <= m \/ e = 0)%Z.
(** [d] is the one nearest to num/den; of two that are equally near, the even one. *)
Definition nearest (num den d : Z) : Prop :=
  let dist x := Z.abs (num * 2 ^ 1074 - x * den)%Z in
  double d /\ (forall d', double d' -> dist d <= dist d')%Z /\
  (forall d', double d' -> d' <> d -> dist d = dist d' -> exists m e, normal d m e /\ Z.even m = true).

(** The value of a number literal is  (decimal of all its digits) * 10^scale. *)
Definition scale (x : number) : Z := ((match n_exp x with Some e => e | None => 0 end) - slen (n_frac x))%Z.
Definition signed (neg : bool) (z : Z) : Z := if neg then (- z)%Z else z.
(** The float64 of a literal, rounded towards zero to an int64 (the smallest one if it does
    not fit); literals beyond the largest float64 have none. *)
Definition float_int (x : number) (z : Z) : Prop :=
  exists d, nearest (decimal (n_int x ++ n_frac x) * 10 ^ Z.max 0 (scale x)) (10 ^ Z.max 0 (- scale x)) d /\
    (d < 2 ^ 1024 * 2 ^ 1074)%Z /\
    let i := signed (n_minus x) (d / 2 ^ 1074) in
    z = if (- 2 ^ 63 <=? i)%Z && (i <? 2 ^ 63)%Z then i else (- 2 ^ 63)%Z.

Inductive keeps : rvalue -> fval -> Prop :=
| kp_null : keeps RNull FNull
| kp_bool b : keeps (RBool b) (FBool b)
| kp_num x z : float_int x z -> keeps (RNum x) (FNum z)
| kp_str raw s : keeps (RStr raw s) (FStr s)
| kp_arr l l' : Forall2 keeps l l' -> keeps (RArr l) (FArr l')
| kp_obj l l' : Forall2 (fun p q => fst p = fst q /\ keeps (snd p) (snd q)) l l' -> keeps (RObj l) (FObj l').

(** The values goidc itself writes: no lists, whole numbers of 64 bits. *)
Inductive simple : rvalue -> json -> Prop :=
| sm_null : simple RNull JSNull
| sm_bool b : simple (RBool b) (JSBool b)
| sm_int neg d z : z = signed neg (decimal d) -> (- 2 ^ 63 <= z < 2 ^ 63)%Z -> simple (RNum (Number neg d "" None)) (JSInt z)
| sm_str raw s : simple (RStr raw s) (JSString s)
| sm_obj l l' : Forall2 (fun p q => fst p = fst q /\ simple (snd p) (snd q)) l l' -> simple (RObj l) (JSObj l').

(** A text is an object with these members; a text is, or begins with, a value of which Go
    keeps [v]. *)
Definition reads_object (text : string) (l : list (string * json)) : Prop := exists x, json_text text x /\ simple x (JSObj l).
Definition reads_as (text : string) (v : fval) : Prop := exists x, go_text text x /\ keeps x v.
Definition begins_with (text : string) (v : fval) : Prop :=
  exists w t r x, text = (w ++ t ++ r)%string /\ ws w /\ value_text t x /\ within_limit x /\ keeps x v.
