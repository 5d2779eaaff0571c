(** * From the bytes of a request to its parameters: net/http and net/url as the
    handlers of goidc use them through [r.FormValue] and [r.PostFormValue]. *)
From Verif Require Import GoStr Codec Core.

(** [url.ParseQuery] with its error ignored, as [http.Request.ParseForm] is used by
    [FormValue] and [PostFormValue] (token_endpoint.go:96,374-396,
    grant/authorization_code.go:26-190, authorization_endpoint.go:48-549,
    resource_protector.go:73-75): components are separated by '&'; empty ones, those
    with a ';' and those with a malformed escape are left out; the others are cut at
    the first '='.  (Go 1.17 and later; before, ';' was another separator.) *)
Fixpoint form_pairs (l : list string) : kvs :=
  match l with
  | [] => []
  | w :: ws =>
      if has_byte ";" w then form_pairs ws
      else if w =s? "" then form_pairs ws
      else let '(k, v, _) := cut "=" w in
           match qunescape k with
           | None => form_pairs ws
           | Some k' => match qunescape v with
                        | None => form_pairs ws
                        | Some v' => (k', v') :: form_pairs ws
                        end
           end
  end.
Definition parse_form (q : string) : kvs := form_pairs (split_on "&" q).

(** A request as it arrives: [w_query] is [r.URL.RawQuery], [w_body] the whole body. *)
Record wire := Wire {
  w_method : string; w_path : string; w_headers : kvs; w_query : string; w_body : string }.

(** [strings.TrimSpace] for the white space of ASCII. *)
Definition white (a : ascii) : bool :=
  let n := N_of_ascii a in ((N.leb 9 n && N.leb n 13) || N.eqb n 32)%bool.
Fixpoint trim_left (s : string) : string :=
  match s with
  | EmptyString => ""
  | String a s' => if white a then trim_left s' else s
  end.
Fixpoint trim_right (s : string) : string :=
  match s with
  | EmptyString => ""
  | String a s' => match trim_right s' with
                   | EmptyString => if white a then "" else String a ""
                   | t => String a t
                   end
  end.
Definition trim_space (s : string) : string := trim_right (trim_left s).

(** mime's [isTSpecial], [isTokenChar], [consumeToken] (grammar.go, mediatype.go). *)
Definition tspecial (a : ascii) : bool := has_byte a "()<>@,;:\""/[]?=".
Definition token_byte (a : ascii) : bool :=
  let n := N_of_ascii a in (N.ltb 32 n && N.ltb n 127 && negb (tspecial a))%bool.
Fixpoint consume_token (s : string) : string * string :=
  match s with
  | EmptyString => ("", "")
  | String a r => if token_byte a then let '(t, q) := consume_token r in (String a t, q) else ("", s)
  end.

(** mime's [consumeValue], mediatype.go: a token or a quoted string; a backslash
    quotes only the special characters.  [quoted_value] is what follows the opening
    quote. *)
Fixpoint quoted_value (s : string) : option (string * string) :=
  match s with
  | EmptyString => None
  | String a r =>
      if Ascii.eqb a dquote then Some ("", r)
      else if Ascii.eqb a "\" then
        match r with
        | String b r' =>
            if tspecial b then option_map (fun p => (String b (fst p), snd p)) (quoted_value r')
            else option_map (fun p => (String a (fst p), snd p)) (quoted_value r)
        | EmptyString => None
        end
      else if (Ascii.eqb a "010" || Ascii.eqb a "013")%bool then None
      else option_map (fun p => (String a (fst p), snd p)) (quoted_value r)
  end.
Definition consume_value (s : string) : string * string :=
  match s with
  | EmptyString => ("", "")
  | String a r =>
      if Ascii.eqb a dquote then match quoted_value r with Some p => p | None => ("", s) end
      else consume_token s
  end.

(** mime's [consumeMediaParam], mediatype.go: the next parameter, its name in lower
    case, its value, and what is left; [None] stands for the empty name. *)
Definition media_param (s : string) : option (string * string * string) :=
  match trim_left s with
  | String ";" r1 =>
      let '(p, r2) := consume_token (trim_left r1) in
      if p =s? "" then None
      else match trim_left r2 with
           | String "=" r3 =>
               let r4 := trim_left r3 in
               let '(x, r5) := consume_value r4 in
               if ((x =s? "") && (r5 =s? r4))%bool then None else Some (to_lower p, x, r5)
           | _ => None
           end
  | _ => None
  end.

(** The loop over the parameters in mime.ParseMediaType, mediatype.go: false if a parameter is
    there twice with different values ("duplicate parameter name").  A malformed
    parameter ends the loop with ErrInvalidMediaParameter, but the media type is
    returned with it, and [parsePostForm] looks only at that. *)
Fixpoint params_agree (fuel : nat) (seen : kvs) (s : string) : bool :=
  match fuel with
  | O => true
  | S n =>
      match media_param s with
      | None => true
      | Some (k, x, rest) =>
          match kv_get k seen with
          | Some y => ((y =s? x) && params_agree n seen rest)%bool
          | None => params_agree n ((k, x) :: seen) rest
          end
      end
  end.

(** [mime.ParseMediaType] of the Content-Type header, as far as it decides whether a
    body is a form: what precedes the first ';', without surrounding white space, in
    lower case; nothing if a parameter is there twice with different values.
    Simplification: [checkMediaTypeDisposition] is left out; what it refuses is not
    the media type of a form. *)
Definition media_type (ct : string) : string :=
  let '(t, r, more) := cut ";" ct in
  if (if more then params_agree (String.length r + 1) [] (String ";" r) else true)
  then to_lower (trim_space t) else "".

(** net/http's [parsePostForm]: urlencoded bodies up to 10 MB. *)
Definition form_body (w : wire) : bool :=
  (media_type (or_empty (kv_get "Content-Type" (w_headers w))) =s? "application/x-www-form-urlencoded")%string.

(** The parameters [mime.ParseMediaType] returns, the last first: [None] if one is
    malformed or there twice with different values; a ';' at the end counts for
    nothing.  Simplification: parameters with a '*' in their name (RFC 2231) are not
    decoded. *)
Fixpoint media_params_of (fuel : nat) (seen : kvs) (s : string) : option kvs :=
  match fuel with
  | O => None
  | S n =>
      if trim_left s =s? "" then Some seen
      else match media_param s with
           | None => if trim_space s =s? ";" then Some seen else None
           | Some (k, x, rest) =>
               match kv_get k seen with
               | Some y => if y =s? x then media_params_of n seen rest else None
               | None => media_params_of n ((k, x) :: seen) rest
               end
           end
  end.
Definition parse_media (ct : string) : option (string * kvs) :=
  let '(t, r, more) := cut ";" ct in
  option_map (pair (to_lower (trim_space t)))
    (if more then media_params_of (String.length r + 2) [] (String ";" r) else Some []).

(** ** mime/multipart, as [http.Request.ParseMultipartForm] uses it; [FormValue] and
    [PostFormValue] call it and ignore its errors.  [nl] is the line end of the first
    delimiter, [b] the boundary. *)

Definition crlf : string := String "013" (String "010" "").

(** What follows the prefix [p]: [bytes.HasPrefix], [bytes.TrimPrefix]. *)
Fixpoint after_prefix (p s : string) : option string :=
  match p, s with
  | EmptyString, _ => Some s
  | String a p', String c s' => if Ascii.eqb a c then after_prefix p' s' else None
  | String _ _, EmptyString => None
  end.

(** [bufio.Reader.ReadSlice('\n')]: the line with its end, and what is left; [None]
    for what is left if there is no end of line. *)
Fixpoint next_line (s : string) : string * option string :=
  match s with
  | EmptyString => ("", None)
  | String a s' => if Ascii.eqb a "010" then (String a "", Some s')
                   else let '(l, r) := next_line s' in (String a l, r)
  end.

(** [skipLWSPChar] *)
Fixpoint skip_blanks (s : string) : string :=
  match s with
  | String a s' => if (Ascii.eqb a " " || Ascii.eqb a "009")%bool then skip_blanks s' else s
  | EmptyString => ""
  end.

(** [isBoundaryDelimiterLine], [isFinalBoundary] *)
Definition delimiter_line (nl b line : string) : bool :=
  match after_prefix ("--" ++ b) line with Some r => skip_blanks r =s? nl | None => false end.
Definition final_line (nl b line : string) : bool :=
  match after_prefix ("--" ++ b ++ "--") line with
  | Some r => let r' := skip_blanks r in ((r' =s? "") || (r' =s? nl))%bool
  | None => false
  end.

(** Up to the first delimiter: [nextPart] with [partsRead == 0].  The line end, and
    what follows the delimiter; [Some None] if the body ends without a part. *)
Fixpoint first_delimiter (fuel : nat) (b s : string) : option (option (string * string)) :=
  match fuel with
  | O => None
  | S n =>
      match next_line s with
      | (line, None) => if final_line crlf b line then Some None else None
      | (line, Some rest) =>
          if delimiter_line (String "010" "") b line then Some (Some (String "010" "", rest))
          else if delimiter_line crlf b line then Some (Some (crlf, rest))
          else if final_line crlf b line then Some None
          else first_delimiter n b rest
      end
  end.

(** After a part: [nextPart] with [partsRead > 0]; an empty line may come first. *)
Definition next_delimiter (nl b s : string) : option (option string) :=
  let read (s : string) (other : option string -> string -> option (option string)) :=
    match next_line s with
    | (line, None) => if final_line nl b line then Some None else None
    | (line, Some rest) =>
        if delimiter_line nl b line then Some (Some rest)
        else if final_line nl b line then Some None
        else other (Some rest) line
    end in
  read s (fun rest line =>
    match rest with
    | Some rest => if line =s? nl then read rest (fun _ _ => None) else None
    | None => None
    end).

(** [textproto.Reader.ReadMIMEHeader]: up to an empty line, names in lower case.
    Simplification: continuation lines count as malformed. *)
Definition line_text (l : string) : string :=
  match cut "010" l with (x, _, _) => match cut "013" x with (y, "", true) => y | _ => x end end.
Fixpoint part_header (fuel : nat) (s : string) : option (kvs * string) :=
  match fuel with
  | O => None
  | S n =>
      match next_line s with
      | (_, None) => None
      | (line, Some rest) =>
          let l := line_text line in
          if l =s? "" then Some ([], rest)
          else match cut ":" l with
               | (k, v, true) => option_map (fun p => ((to_lower k, trim_space v) :: fst p, snd p)) (part_header n rest)
               | _ => None
               end
      end
  end.

(** [scanUntilBoundary] on the whole of what is left of the body: the content of the
    part, and what follows it, from the delimiter on. *)
Definition ends_delimiter (s : string) : bool :=
  match s with
  | EmptyString => true
  | String a _ => has_byte a (String " " (String "009" (String "013" (String "010" "-"))))
  end.
Fixpoint scan (d s : string) : option (string * string) :=
  if match after_prefix d s with Some r => ends_delimiter r | None => false end then Some ("", s)
  else match s with
       | EmptyString => None
       | String a s' => option_map (fun p => (String a (fst p), snd p)) (scan d s')
       end.
Definition part_content (nl b s : string) : option (string * string) :=
  if match after_prefix ("--" ++ b) s with Some r => ends_delimiter r | None => false end then Some ("", s)
  else scan (nl ++ "--" ++ b) s.

(** [Reader.ReadForm]: the value of a part, if it is a named part of a form without a
    file name.  Simplification: a part sent as quoted-printable counts as malformed. *)
Definition part_value (h : kvs) (content : string) : option kvs :=
  if to_lower (or_empty (kv_get "content-transfer-encoding" h)) =s? "quoted-printable" then None
  else match parse_media (or_empty (kv_get "content-disposition" h)) with
       | Some (t, ps) =>
           let name := or_empty (kv_get "name" ps) in
           if ((t =s? "form-data") && negb (name =s? "") && (or_empty (kv_get "filename" ps) =s? ""))%bool
           then Some [(name, content)] else Some []
       | None => Some []
       end.
Fixpoint read_parts (fuel : nat) (nl b s : string) : option kvs :=
  match fuel with
  | O => None
  | S n =>
      match part_header (S (String.length s)) s with
      | None => None
      | Some (h, s1) =>
          match part_content nl b s1 with
          | None => None
          | Some (content, s2) =>
              match part_value h content, next_delimiter nl b s2 with
              | Some v, Some None => Some v
              | Some v, Some (Some s3) => option_map (app v) (read_parts n nl b s3)
              | _, _ => None
              end
          end
      end
  end.
(** The values together take up 42 MB at most.  Simplification: the limits that later
    versions of Go put on the number of parts and of headers are left out. *)
Definition multipart_values (b body : string) : option kvs :=
  match first_delimiter (S (String.length body)) b body with
  | Some (Some (nl, s)) =>
      match read_parts (S (String.length body)) nl b s with
      | Some l => if N.leb (fold_right N.add 0%N (map (fun p => N.of_nat (String.length (snd p))) l)) 44040192 then Some l else None
      | None => None
      end
  | Some None => Some []
  | None => None
  end.

(** [http.Request.multipartReader] and [ParseMultipartForm], whatever the method: the
    values of the parts; none if there is any error. *)
Definition wire_parts (w : wire) : kvs :=
  match parse_media (or_empty (kv_get "Content-Type" (w_headers w))) with
  | Some (t, ps) =>
      if t =s? "multipart/form-data" then
        match kv_get "boundary" ps with
        | Some b => match multipart_values b (w_body w) with Some l => l | None => [] end
        | None => []
        end
      else []
  | None => []
  end.

(** The request the handlers see.  Only POST, PUT and PATCH requests have an
    urlencoded body read. *)
Definition reads_body (w : wire) : bool :=
  ((w_method w =s? "POST") || (w_method w =s? "PUT") || (w_method w =s? "PATCH"))%bool.
Definition arrives (w : wire) : request :=
  MultiRequest (w_method w) (w_path w) (w_headers w) (parse_form (w_query w))
    (if (reads_body w && form_body w && N.leb (N.of_nat (String.length (w_body w))) 10485760)%bool
     then parse_form (w_body w) else [])
    (wire_parts w).
