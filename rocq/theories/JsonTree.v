(** * authorization/request.go [DecodeRequest], for any string.

    base64 up to the first error, encoding/json into a struct, and flow/flow.go's
    [UnmarshalJSON]. *)
From Verif Require Import GoStr Codec Json JsonParse JsonFull Core.

(** ** encoding/base64: the bytes [DecodeString] returns, also when it fails: those of the
    groups before the first that is wrong; what follows the padding is an error but the
    bytes before it are returned. *)
Fixpoint b64_prefix (al : b64alpha) (s : string) : string :=
  match s with
  | String a (String b (String c (String d s'))) =>
      match char_sx al a, char_sx al b with
      | Some p, Some q =>
          if Ascii.eqb c "=" then if Ascii.eqb d "=" then String (byte_a p q) "" else ""
          else match char_sx al c with
               | None => ""
               | Some r =>
                   if Ascii.eqb d "=" then String (byte_a p q) (String (byte_b q r) "")
                   else match char_sx al d with
                        | Some t => String (byte_a p q) (String (byte_b q r) (String (byte_c r t) (b64_prefix al s')))
                        | None => ""
                        end
               end
      | _, _ => ""
      end
  | _ => ""
  end.
Definition b64_bytes (al : b64alpha) (s : string) : string := b64_prefix al (strip_nl s).

(** ** encoding/json: a document as the decoder for structs sees it.  [TNum]: what
    [strconv.ParseInt] makes of the literal; [TStr]: the literal between its quotes (for
    [UnmarshalJSON]) and the string it stands for. *)
Inductive jtree :=
| TNull
| TBool (b : bool)
| TNum (as_int64 : option Z)
| TStr (raw s : string)
| TArr (l : list jtree)
| TObj (l : list (string * jtree)).

(** A number: JSON's grammar; an integer if nothing follows its digits and it fits. *)
Definition tnumber (s : string) : option (option Z * string) :=
  let '(neg, body) := match s with String "-" r => (true, r) | _ => (false, s) end in
  let '(i, r1) := span_digits body in
  if int_part i then
    match frac_part r1 with
    | None => None
    | Some (f, r2) =>
        match exp_part r2 with
        | None => None
        | Some (_, r3) =>
            match digits_val 0 i with
            | None => None
            | Some m =>
                let z := if neg then (- m)%Z else m in
                Some (if ((r3 =s? r1) && is_int64 z)%bool then Some z else None, r3)
            end
        end
    end
  else None.

Definition tword (w : string) (v : jtree) (s : string) : option (jtree * string) :=
  if String.prefix w s then Some (v, substring (String.length w) (String.length s - String.length w) s) else None.

(** Values; [n] bounds nesting and the number of members. *)
Fixpoint tvalue (n : nat) (s : string) : option (jtree * string) :=
  match n with
  | O => None
  | S n' =>
      match jskip s with
      | EmptyString => None
      | String a r =>
          if Ascii.eqb a dquote then
            match jliteral r with Some (t, r') => Some (TStr (substring 0 (String.length r - String.length r' - 1) r) t, r') | None => None end
          else if Ascii.eqb a "{" then
            match jskip r with
            | String b r' =>
                if Ascii.eqb b "}" then Some (TObj [], r')
                else match tmembers n' (String b r') with
                     | Some (l, r2) => Some (TObj l, r2)
                     | None => None
                     end
            | EmptyString => None
            end
          else if Ascii.eqb a "[" then
            match jskip r with
            | String b r' =>
                if Ascii.eqb b "]" then Some (TArr [], r')
                else match telements n' (String b r') with
                     | Some (l, r2) => Some (TArr l, r2)
                     | None => None
                     end
            | EmptyString => None
            end
          else if Ascii.eqb a "n" then tword "null" TNull (String a r)
          else if Ascii.eqb a "t" then tword "true" (TBool true) (String a r)
          else if Ascii.eqb a "f" then tword "false" (TBool false) (String a r)
          else match tnumber (String a r) with Some (z, r') => Some (TNum z, r') | None => None end
      end
  end
with tmembers (n : nat) (s : string) : option (list (string * jtree) * string) :=
  match n with
  | O => None
  | S n' =>
      match jskip s with
      | String q r =>
          if Ascii.eqb q dquote then
            match jliteral r with
            | None => None
            | Some (k, r1) =>
                match jskip r1 with
                | String c r2 =>
                    if Ascii.eqb c ":" then
                      match tvalue n' r2 with
                      | None => None
                      | Some (v, r3) =>
                          match jskip r3 with
                          | String e r4 =>
                              if Ascii.eqb e "}" then Some ([(k, v)], r4)
                              else if Ascii.eqb e "," then
                                match tmembers n' r4 with
                                | Some (l, r5) => Some ((k, v) :: l, r5)
                                | None => None
                                end
                              else None
                          | EmptyString => None
                          end
                      end
                    else None
                | EmptyString => None
                end
            end
          else None
      | EmptyString => None
      end
  end
with telements (n : nat) (s : string) : option (list jtree * string) :=
  match n with
  | O => None
  | S n' =>
      match tvalue n' s with
      | None => None
      | Some (v, r) =>
          match jskip r with
          | String e r' =>
              if Ascii.eqb e "]" then Some ([v], r')
              else if Ascii.eqb e "," then
                match telements n' r' with
                | Some (l, r2) => Some (v :: l, r2)
                | None => None
                end
              else None
          | EmptyString => None
          end
      end
  end.


(** As [JsonFull.depth], in authorization/request.go's [json.Unmarshal]. *)
Fixpoint tdepth (v : jtree) : N :=
  match v with
  | TArr l => N.succ (fold_right N.max 0%N (map tdepth l))
  | TObj l => N.succ (fold_right N.max 0%N (map (fun p => tdepth (snd p)) l))
  | _ => 0%N
  end.

(** [json.Unmarshal]'s reading of the whole text. *)
Definition tree_of_text (s : string) : option jtree :=
  match tvalue (S (String.length s)) s with
  | Some (v, r) => if ((jskip r =s? "") && N.leb (tdepth v) max_nesting)%bool then Some v else None
  | None => None
  end.

(** ** Filling a struct, member by member *)

(** encoding/json's [equalFold]: a member's name and a field's name (an ASCII name) are the
    same but for the case of letters; U+017F counts as an s, U+212A as a k. *)
Definition lower_byte (a : ascii) : ascii :=
  let n := N_of_ascii a in if (N.leb 65 n && N.leb n 90)%bool then ascii_of_N (n + 32) else a.
Fixpoint fold_eq (k key : string) : bool :=
  match k, key with
  | EmptyString, EmptyString => true
  | String a k', String b key' =>
      if Ascii.eqb (lower_byte a) (lower_byte b) then fold_eq k' key'
      else match key' with
           | String c key2 =>
               if (Ascii.eqb (lower_byte a) "s" && Ascii.eqb b "197" && Ascii.eqb c "191")%bool then fold_eq k' key2
               else match key2 with
                    | String d key3 =>
                        if (Ascii.eqb (lower_byte a) "k" && Ascii.eqb b "226" && Ascii.eqb c "132" && Ascii.eqb d "170")%bool
                        then fold_eq k' key3 else false
                    | EmptyString => false
                    end
           | EmptyString => false
           end
  | _, _ => false
  end.

(** A value of another type is an error that is noted but does not stop the decoder; null
    changes nothing (decode.go, [literalStore]). *)
Definition set_string (cur : string) (v : jtree) : string := match v with TStr _ s => s | _ => cur end.
Definition set_int (cur : Z) (v : jtree) : Z := match v with TNum (Some z) => z | _ => cur end.
Definition set_bool (cur : bool) (v : jtree) : bool := match v with TBool b => b | _ => cur end.

(** flow/flow.go:38-55 [UnmarshalJSON]. *)
Definition flow_type_of (literal : string) : option flow_type :=
  if literal =s? "authorization_code" then Some FAuthorizationCode
  else if literal =s? "implicit" then Some FImplicit
  else if literal =s? "hybrid" then Some FHybrid
  else if literal =s? "direct_grant" then Some FDirectGrant
  else None.

(** flow/flow.go:57-61.  An error from [UnmarshalJSON] stops the decoder ([false]). *)
Definition flow_member (f : flow) (key : string) (v : jtree) : flow * bool :=
  if fold_eq "type" key then
    match v with
    | TStr raw _ => match flow_type_of raw with
                    | Some t => (Flow t (f_access f) (f_id f), true)
                    | None => (f, false)
                    end
    | _ => (f, false)
    end
  else if fold_eq "require_access_token" key then (Flow (f_type f) (set_bool (f_access f) v) (f_id f), true)
  else if fold_eq "require_id_token" key then (Flow (f_type f) (f_access f) (set_bool (f_id f) v), true)
  else (f, true).
Fixpoint fill_flow (f : flow) (l : list (string * jtree)) : flow * bool :=
  match l with
  | [] => (f, true)
  | (k, v) :: r => let '(f', ok) := flow_member f k v in if ok then fill_flow f' r else (f', false)
  end.

(** authorization/request.go:57-72.  The pointer is allocated for any value but null. *)
Definition no_flow : flow := Flow FAuthorizationCode false false.
Definition set_flow (cur : option flow) (v : jtree) : option flow * bool :=
  let f := match cur with Some f => f | None => no_flow end in
  match v with
  | TNull => (None, true)
  | TObj m => let '(f', ok) := fill_flow f m in (Some f', ok)
  | _ => (Some f, true)
  end.
Definition request_member (q : arequest) (key : string) (v : jtree) : arequest * bool :=
  let 'ARequest f c s ru m st cv n d p ma l ih lh := q in
  if fold_eq "flow" key then let '(f', ok) := set_flow f v in (ARequest f' c s ru m st cv n d p ma l ih lh, ok)
  else if fold_eq "client_id" key then (ARequest f (set_string c v) s ru m st cv n d p ma l ih lh, true)
  else if fold_eq "scope" key then (ARequest f c (set_string s v) ru m st cv n d p ma l ih lh, true)
  else if fold_eq "redirect_uri" key then (ARequest f c s (set_string ru v) m st cv n d p ma l ih lh, true)
  else if fold_eq "response_mode" key then (ARequest f c s ru (set_string m v) st cv n d p ma l ih lh, true)
  else if fold_eq "state" key then (ARequest f c s ru m (set_string st v) cv n d p ma l ih lh, true)
  else if fold_eq "code_verifier" key then (ARequest f c s ru m st (set_string cv v) n d p ma l ih lh, true)
  else if fold_eq "nonce" key then (ARequest f c s ru m st cv (set_string n v) d p ma l ih lh, true)
  else if fold_eq "display" key then (ARequest f c s ru m st cv n (set_string d v) p ma l ih lh, true)
  else if fold_eq "prompt" key then (ARequest f c s ru m st cv n d (set_string p v) ma l ih lh, true)
  else if fold_eq "max_age" key then (ARequest f c s ru m st cv n d p (set_int ma v) l ih lh, true)
  else if fold_eq "ui_locale" key then (ARequest f c s ru m st cv n d p ma (set_string l v) ih lh, true)
  else if fold_eq "id_token_hint" key then (ARequest f c s ru m st cv n d p ma l (set_string ih v) lh, true)
  else if fold_eq "login_hint" key then (ARequest f c s ru m st cv n d p ma l ih (set_string lh v), true)
  else (q, true).
Fixpoint fill_request (q : arequest) (l : list (string * jtree)) : arequest :=
  match l with
  | [] => q
  | (k, v) :: r => let '(q', ok) := request_member q k v in if ok then fill_request q' r else q'
  end.
Definition zero_request : arequest := ARequest None "" "" "" "" "" "" "" "" "" 0 "" "" "".

(** authorization/request.go:106-111 [DecodeRequest]: errors are ignored; a text that is no
    JSON, or no object, leaves the struct as it is. *)
Definition decode_request (s : string) : arequest :=
  match tree_of_text (b64_bytes B64Url s) with
  | Some (TObj l) => fill_request zero_request l
  | _ => zero_request
  end.
