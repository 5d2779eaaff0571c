(** * encoding/json: unmarshalling of any document into interface{} values.

    golang-jwt reads the header and the claims of a token this way
    (token_endpoint.go:162, grant/jwt.go:41, authorization_endpoint.go:729).  White space,
    string literals and the integer part of numbers are read by the functions of
    JsonParse.v. *)
From Verif Require Import GoStr Codec Json JsonParse Core.

(** A value as Go holds it.  Of a float64 only its conversion to int64 matters to goidc
    (assertion/error.go:121-150, authorization_endpoint.go:746-755): [FNum] carries that. *)
Inductive fval :=
| FNull
| FBool (b : bool)
| FNum (as_int64 : Z)
| FStr (s : string)
| FArr (l : list fval)
| FObj (l : list (string * fval)).

(** [a/b] rounded to the nearest integer, halves to the even one. *)
Definition round_div (a b : Z) : Z :=
  (let q := a / b in
   let r := a mod b in
   if 2 * r <? b then q else if b <? 2 * r then q + 1 else if Z.even q then q else q + 1)%Z.

(** The integer part of the float64 nearest to [num/den] ([num >= 0], [den > 0]), 53
    significant bits; [None]: out of range ([strconv.ParseFloat] fails). *)
Definition float_trunc (num den : Z) : option Z :=
  (let i := num / den in
   if i <? 1 then Some (if (2 ^ 54 - 1) * den <=? num * 2 ^ 54 then 1 else 0)
   else let e := Z.log2 i - 52 in
        if 0 <=? e
        then let f := round_div num (den * 2 ^ e) * 2 ^ e in if f <? 2 ^ 1024 then Some f else None
        else Some (round_div (num * 2 ^ (- e)) den / 2 ^ (- e)))%Z.

(** [int64(f)]; out of range the result on amd64. *)
Definition to_int64 (z : Z) : Z := if is_int64 z then z else (- two63)%Z.

(** The digits of a number's integer part: no leading zeros. *)
Definition int_part (d : string) : bool :=
  match d with
  | EmptyString => false
  | String _ EmptyString => true
  | String a _ => negb (Ascii.eqb a "0")
  end.

(** An optional fraction, an optional exponent. *)
Definition frac_part (s : string) : option (string * string) :=
  match s with
  | String a r =>
      if Ascii.eqb a "." then
        let '(d, t) := span_digits r in if d =s? "" then None else Some (d, t)
      else Some ("", s)
  | EmptyString => Some ("", s)
  end.
Definition exp_sign (s : string) : bool * string :=
  match s with
  | String a r => if Ascii.eqb a "-" then (true, r) else if Ascii.eqb a "+" then (false, r) else (false, s)
  | EmptyString => (false, s)
  end.
Definition exp_part (s : string) : option (Z * string) :=
  match s with
  | String a r =>
      if (Ascii.eqb a "e" || Ascii.eqb a "E")%bool then
        let '(neg, body) := exp_sign r in
        let '(d, t) := span_digits body in
        if d =s? "" then None
        else match digits_val 0 d with
             | Some x => Some ((if neg then (- x)%Z else x), t)
             | None => None
             end
      else Some (0%Z, s)
  | EmptyString => Some (0%Z, s)
  end.

(** A number. *)
Definition fnumber (s : string) : option (Z * string) :=
  let '(neg, body) := match s with String "-" r => (true, r) | _ => (false, s) end in
  let '(i, r1) := span_digits body in
  if int_part i then
    match frac_part r1 with
    | None => None
    | Some (f, r2) =>
        match exp_part r2 with
        | None => None
        | Some (x, r3) =>
            match digits_val 0 (i ++ f) with
            | None => None
            | Some m =>
                let e := (x - slen f)%Z in
                match float_trunc (m * 10 ^ Z.max 0 e) (10 ^ Z.max 0 (- e)) with
                | None => None
                | Some z => Some (to_int64 (if neg then (- z)%Z else z), r3)
                end
            end
        end
    end
  else None.

Definition fword (w : string) (v : fval) (s : string) : option (fval * string) :=
  if String.prefix w s then Some (v, substring (String.length w) (String.length s - String.length w) s) else None.

(** Values; [n] bounds nesting and the number of members. *)
Fixpoint fvalue (n : nat) (s : string) : option (fval * string) :=
  match n with
  | O => None
  | S n' =>
      match jskip s with
      | EmptyString => None
      | String a r =>
          if Ascii.eqb a dquote then
            match jliteral r with Some (t, r') => Some (FStr t, r') | None => None end
          else if Ascii.eqb a "{" then
            match jskip r with
            | String b r' =>
                if Ascii.eqb b "}" then Some (FObj [], r')
                else match fmembers n' (String b r') with
                     | Some (l, r2) => Some (FObj l, r2)
                     | None => None
                     end
            | EmptyString => None
            end
          else if Ascii.eqb a "[" then
            match jskip r with
            | String b r' =>
                if Ascii.eqb b "]" then Some (FArr [], r')
                else match felements n' (String b r') with
                     | Some (l, r2) => Some (FArr l, r2)
                     | None => None
                     end
            | EmptyString => None
            end
          else if Ascii.eqb a "n" then fword "null" FNull (String a r)
          else if Ascii.eqb a "t" then fword "true" (FBool true) (String a r)
          else if Ascii.eqb a "f" then fword "false" (FBool false) (String a r)
          else match fnumber (String a r) with Some (z, r') => Some (FNum z, r') | None => None end
      end
  end
with fmembers (n : nat) (s : string) : option (list (string * fval) * string) :=
  match n with
  | O => None
  | S n' =>
      match jskip s with
      | String q r =>
          if Ascii.eqb q dquote then
            match jliteral r with
            | None => None
            | Some (k, r1) =>
                match jskip r1 with
                | String c r2 =>
                    if Ascii.eqb c ":" then
                      match fvalue n' r2 with
                      | None => None
                      | Some (v, r3) =>
                          match jskip r3 with
                          | String e r4 =>
                              if Ascii.eqb e "}" then Some ([(k, v)], r4)
                              else if Ascii.eqb e "," then
                                match fmembers n' r4 with
                                | Some (l, r5) => Some ((k, v) :: l, r5)
                                | None => None
                                end
                              else None
                          | EmptyString => None
                          end
                      end
                    else None
                | EmptyString => None
                end
            end
          else None
      | EmptyString => None
      end
  end
with felements (n : nat) (s : string) : option (list fval * string) :=
  match n with
  | O => None
  | S n' =>
      match fvalue n' s with
      | None => None
      | Some (v, r) =>
          match jskip r with
          | String e r' =>
              if Ascii.eqb e "]" then Some ([v], r')
              else if Ascii.eqb e "," then
                match felements n' r' with
                | Some (l, r2) => Some (v :: l, r2)
                | None => None
                end
              else None
          | EmptyString => None
          end
      end
  end.

(** encoding/json, scanner.go [pushParseState], in the calls cited above: a text with more than maxNestingDepth arrays
    and objects inside one another is an error.  Go counts while it reads; here the value
    read is measured, which comes to the same, since both ways nothing is read. *)
Fixpoint depth (v : fval) : N :=
  match v with
  | FArr l => N.succ (fold_right N.max 0%N (map depth l))
  | FObj l => N.succ (fold_right N.max 0%N (map (fun p => depth (snd p)) l))
  | _ => 0%N
  end.
Definition max_nesting : N := 10000.

(** [json.Unmarshal]: the whole text is one value. *)
Definition unmarshal (s : string) : option fval :=
  match fvalue (S (String.length s)) s with
  | Some (v, r) => if ((jskip r =s? "") && N.leb (depth v) max_nesting)%bool then Some v else None
  | None => None
  end.
(** [json.Decoder.Decode]: the text begins with a value; what follows is not read. *)
Definition decode_one (s : string) : option fval :=
  match fvalue (S (String.length s)) s with Some (v, _) => if N.leb (depth v) max_nesting then Some v else None | None => None end.
