(** * [url.Parse] and [http.Redirect]: what the browser is really sent.

    Everything here models functions of Go's standard library (Go 1.19) at the points
    where /repo calls them: [url.Parse] in authorization/response.go:36 (its error is
    ignored and its result dereferenced), [http.Redirect] in
    authorization/response.go:86,99. *)
From Verif Require Import GoStr Codec Core AuthzResponse.

(** net/url [stringContainsCTLByte], called by the [url.Parse] of
    authorization/response.go:36 *)
Definition ctl_byte (a : ascii) : bool := let n := N_of_ascii a in (N.ltb n 32 || N.eqb n 127)%bool.
Fixpoint has_ctl (s : string) : bool :=
  match s with
  | EmptyString => false
  | String a s' => ctl_byte a || has_ctl s'
  end.

(** The longest prefix of bytes with a property, and what follows it. *)
Fixpoint span (f : ascii -> bool) (s : string) : string * string :=
  match s with
  | EmptyString => ("", "")
  | String a s' => if f a then let '(x, y) := span f s' in (String a x, y) else ("", s)
  end.

(** net/url [getScheme] (authorization/response.go:36): [None] is the error "missing
    protocol scheme"; otherwise the scheme ("" if there is none) and the rest. *)
Definition scheme_byte (a : ascii) : bool :=
  (is_alpha a || is_digit a || Ascii.eqb a "+" || Ascii.eqb a "-" || Ascii.eqb a ".")%bool.
Definition get_scheme (s : string) : option (string * string) :=
  match span scheme_byte s with
  | ("", String ":" _) => None
  | (String a w, String ":" rest) => if is_alpha a then Some (String a w, rest) else Some ("", s)
  | _ => Some ("", s)
  end.

(** net/url [unescape], as far as its error goes; [encoding] is Go's type of that name
    (authorization/response.go:36). *)
Inductive encoding := EncHost | EncZone | EncOther.

Definition is_hex (a : ascii) : bool := match hex_val a with Some _ => true | None => false end.

(** net/url [shouldEscape] for [encodeHost] and [encodeZone] (authorization/response.go:36) *)
Definition host_byte (a : ascii) : bool :=
  (unreserved a || has_byte a "!$&'()*+,;=:[]<>" || Ascii.eqb a dquote)%bool.

(** '%' with the digits [h] and [l] that follow it is allowed: in a host only bytes
    that are not ASCII may be escaped, and '%' itself; in a zone also a space and what
    may stand there unescaped. *)
Definition escape_ok (e : encoding) (h l : ascii) : bool :=
  match hex_val h, hex_val l with
  | Some x, Some y =>
      match e with
      | EncHost => (negb (N.ltb x 8) || (Ascii.eqb h "2" && Ascii.eqb l "5"))%bool
      | EncZone => let v := ascii_of_N (x * 16 + y) in
                   ((Ascii.eqb h "2" && Ascii.eqb l "5") || Ascii.eqb v " " || host_byte v)%bool
      | EncOther => true
      end
  | _, _ => false
  end.
Definition plain_ok (e : encoding) (a : ascii) : bool :=
  match e with
  | EncOther => true
  | _ => (negb (N.ltb (N_of_ascii a) 128) || host_byte a)%bool
  end.

Fixpoint unescapes (e : encoding) (s : string) : bool :=
  match s with
  | EmptyString => true
  | String a s' =>
      if Ascii.eqb a "%" then
        match s' with
        | String h (String l r) => (escape_ok e h l && unescapes e r)%bool
        | _ => false
        end
      else (plain_ok e a && unescapes e s')%bool
  end.

(** [strings.LastIndex(s, c)] for one byte: what precedes and what follows its last
    occurrence. *)
Fixpoint cut_last (c : ascii) (s : string) : option (string * string) :=
  match s with
  | EmptyString => None
  | String a s' =>
      match cut_last c s' with
      | Some (x, y) => Some (String a x, y)
      | None => if Ascii.eqb a c then Some ("", s') else None
      end
  end.

Fixpoint all_bytes (f : ascii -> bool) (s : string) : bool :=
  match s with
  | EmptyString => true
  | String a s' => (f a && all_bytes f s')%bool
  end.

(** net/url [validOptionalPort] (authorization/response.go:36) *)
Definition valid_port (s : string) : bool :=
  match s with
  | EmptyString => true
  | String ":" d => all_bytes is_digit d
  | String _ _ => false
  end.

(** [strings.Index(s, "%25")]: what precedes it, and the rest from there. *)
Fixpoint find_zone (s : string) : option (string * string) :=
  if has_prefix "%25" s then Some ("", s)
  else match s with
       | EmptyString => None
       | String a s' => match find_zone s' with Some (x, y) => Some (String a x, y) | None => None end
       end.

(** net/url [parseHost] (authorization/response.go:36): no error? *)
Definition host_ok (s : string) : bool :=
  if has_prefix "[" s then
    match cut_last "]" s with
    | None => false
    | Some (inside, after) =>
        (valid_port after &&
         match find_zone inside with
         | Some (h1, zone) => unescapes EncHost h1 && unescapes EncZone zone && unescapes EncHost (String "]" after)
         | None => unescapes EncHost s
         end)%bool
    end
  else
    (match cut_last ":" s with
     | Some (_, port) => all_bytes is_digit port
     | None => true
     end && unescapes EncHost s)%bool.

(** net/url [validUserinfo] (authorization/response.go:36) *)
Definition user_byte (a : ascii) : bool := (is_alpha a || is_digit a || has_byte a "-._:~!$&'()*+,;=%@")%bool.

(** net/url [parseAuthority] (authorization/response.go:36): no error?  (Unescaping the
    user name and the password apart, or both together with the ':' between them, fails
    in the same cases: ':' is no part of an escape.) *)
Definition authority_ok (s : string) : bool :=
  match cut_last "@" s with
  | None => host_ok s
  | Some (user, host) =>
      (host_ok host && all_bytes user_byte user &&
       let '(n, p, _) := cut ":" user in unescapes EncOther n && unescapes EncOther p)%bool
  end.

(** What [url.Parse] finds, as far as its callers look: the scheme and the authority
    as written. *)
Record parsed := Parsed { u_scheme : string; u_authority : string }.

(** net/url [parse] with [viaRequest] false, of the part before '#'
    (authorization/response.go:36) *)
Definition parse_base (s : string) : option parsed :=
  if has_ctl s then None
  else if s =s? "*" then Some (Parsed "" "")
  else match get_scheme s with
       | None => None
       | Some (scheme, rest0) =>
           let '(rest, _, _) := cut "?" rest0 in
           if (negb (has_prefix "/" rest) && negb (scheme =s? ""))%bool then Some (Parsed scheme "")
           else if (negb (has_prefix "/" rest) && (let '(seg, _, _) := cut "/" rest in has_byte ":" seg))%bool then None
           else if (has_prefix "//" rest && (negb (scheme =s? "") || negb (has_prefix "///" rest)))%bool then
             let body := match rest with String _ (String _ b) => b | _ => "" end in
             let '(auth, path) := span (fun a => negb (Ascii.eqb a "/")) body in
             if (authority_ok auth && unescapes EncOther path)%bool then Some (Parsed scheme auth) else None
           else if unescapes EncOther rest then Some (Parsed scheme "") else None
       end.

(** [url.Parse] (authorization/response.go:36): [None] is an error. *)
Definition url_parse (s : string) : option parsed :=
  let '(base, frag, _) := cut "#" s in
  match parse_base base with
  | Some u => if unescapes EncOther frag then Some u else None
  | None => None
  end.

(** Is there a URL that [Connector] can look at?  (authorization/response.go:36) *)
Definition url_parses (s : string) : bool := match url_parse s with Some _ => true | None => false end.

(** The authorization endpoint with Go's [url.Parse]. *)
Definition go_env (J : jwtlib) : env := Env J url_parses.

(** ** [http.Redirect]: authorization/response.go:86,99 *)

(** [path.Clean], called by [http.Redirect] for relative URLs
    (authorization/response.go:86,99) *)
Definition clean_step (rooted : bool) (done : list string) (w : string) : list string :=
  if ((w =s? "") || (w =s? "."))%bool then done
  else if w =s? ".." then
    match done with
    | [] => if rooted then [] else [".."]
    | d :: r => if d =s? ".." then ".." :: done else r
    end
  else w :: done.
Definition path_clean (p : string) : string :=
  if p =s? "" then "."
  else let rooted := has_prefix "/" p in
       let segs := join "/" (rev (fold_left (clean_step rooted) (split_on "/" p) [])) in
       if rooted then String "/" segs else if segs =s? "" then "." else segs.

(** [path.Split]: the directory, with its '/'. *)
Definition path_dir (p : string) : string :=
  match cut_last "/" p with Some (d, _) => d ++ "/" | None => "" end.

(** net/http [Redirect]: the URL it sends to a request for [path]
    (authorization/response.go:86,99).  The host that decides is the one after
    unescaping, which is empty only if [u_authority] is, or is a bare user part: then
    [cut_last] tells. *)
Definition no_host (auth : string) : bool :=
  match cut_last "@" auth with Some (_, h) => h =s? "" | None => auth =s? "" end.
Definition redirect_target (path url : string) : string :=
  match url_parse url with
  | Some u =>
      if ((u_scheme u =s? "") && no_host (u_authority u))%bool then
        let full := if has_prefix "/" url then url else path_dir (if path =s? "" then "/" else path) ++ url in
        let '(p, q, asked) := cut "?" full in
        let c := path_clean p in
        let c := if (has_suffix "/" p && negb (has_suffix "/" c))%bool then c ++ "/" else c in
        if (asked : bool) then c ++ "?" ++ q else c
      else url
  | None => url
  end.

(** net/http [hexEscapeNonASCII] (authorization/response.go:86,99) *)
Definition ascii_byte (a : ascii) : bool := N.ltb (N_of_ascii a) 128.
Definition hex_non_ascii_byte (a : ascii) : string :=
  if ascii_byte a then String a ""
  else let n := N_of_ascii a in
       String "%" (String (hex_digit_lower (n / 16)) (String (hex_digit_lower (n mod 16)) "")).
Definition hex_non_ascii (s : string) : string := concat_map hex_non_ascii_byte s.

(** net/http [Redirect] with StatusFound (authorization/response.go:86,99): what is
    written to a request of method [meth] for [path]; [had_ct]: a Content-Type was set
    before (by the application around the endpoint). *)
Definition newline_s : string := String "010" "".
Definition redirect_writes (meth path : string) (had_ct : bool) (url : string) : list op :=
  let u := redirect_target path url in
  (OSetHeader "Location" (hex_non_ascii u)
   :: (if (negb had_ct && ((meth =s? "GET") || (meth =s? "HEAD")))%bool
       then [OSetHeader "Content-Type" "text/html; charset=utf-8"] else [])
   ++ OStatus 302
   :: (if (negb had_ct && (meth =s? "GET"))%bool
       then [OBody ("<a href=" ++ dq (hescape u) ++ ">Found</a>." ++ newline_s ++ newline_s)] else []))%list.

(** The operations on the [http.ResponseWriter] that a run causes. *)
Definition writes (meth path : string) (had_ct : bool) (tr : list op) : list op :=
  flat_map (fun o => match o with ORedirect u => redirect_writes meth path had_ct u | _ => [o] end) tr.
