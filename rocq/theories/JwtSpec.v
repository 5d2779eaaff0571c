(** * Vocabulary: JSON Web Tokens.

    These definitions model no code of /repo: they say what a JWT is (RFC 7515, 7518 and
    7519), over the base64url of Spec.v, the UTF-8 of CodecSpec.v and the JSON of
    JsonSpec.v. *)
From Verif Require Import GoStr Json JsonFull Core Sha Spec CodecSpec JsonSpec Jwt.

(** RFC 7515, 7.1: header, payload and signature in the compact serialization; what is
    signed (5.1). *)
Definition to_sign (header payload : string) : string := (rfc4648_url header ++ "." ++ rfc4648_url payload)%string.
Definition compact (tok header payload sig : string) : Prop :=
  tok = (to_sign header payload ++ "." ++ rfc4648_url sig)%string.

(** A JSON object without repeated names. *)
Definition object (text : string) (l : list (string * json)) : Prop := reads_object text l /\ NoDup (map fst l).

(** The payload (the header) of the token has the member [k] with the value [v]. *)
Definition says (tok k : string) (v : json) : Prop :=
  exists h p s l, compact tok h p s /\ object p l /\ In (k, v) l.
Definition heads (tok k : string) (v : json) : Prop :=
  exists h p s l, compact tok h p s /\ object h l /\ In (k, v) l.

(** A claim and its JSON value: text is read as UTF-8. *)
Inductive written : cval -> json -> Prop :=
| wr_str s t : repaired s t -> written (CStr s) (JSString t)
| wr_int z : written (CInt z) (JSInt z).

(** RFC 2104: the key, filled up with zeros to the block size (hashed first if it is
    longer), is combined with two constants. *)
Definition xored (n : N) (s : string) : string :=
  string_of_list_ascii (map (fun a => ascii_of_N (N.lxor (N_of_ascii a) n)) (list_ascii_of_string s)).
Definition rfc2104 (H : string -> string) (block : nat) (k msg out : string) : Prop :=
  exists k' zs, ((String.length k <= block)%nat /\ k' = k \/ (block < String.length k)%nat /\ k' = H k) /\
    Forall (fun a => a = "000"%char) (list_ascii_of_string zs) /\ String.length (k' ++ zs) = block /\
    out = H (xored 0x5c (k' ++ zs) ++ H (xored 0x36 (k' ++ zs) ++ msg))%string.

(** RFC 7518, 3.2: HMAC with SHA-2. *)
Inductive hs_alg : string -> (string -> string) -> nat -> Prop :=
| hs_256 : hs_alg "HS256" sha256 64
| hs_384 : hs_alg "HS384" sha384 128
| hs_512 : hs_alg "HS512" sha512 128.

(** The algorithms there are (RFC 7518, 3.1, and RFC 8037). *)
Definition algorithms : list string :=
  ["HS256"; "HS384"; "HS512"; "RS256"; "RS384"; "RS512"; "ES256"; "ES384"; "ES512"; "PS256"; "PS384"; "PS512"; "EdDSA"; "none"].

(** [sig] is a signature of [msg] under [k] with algorithm [alg]: the message
    authentication code for a shared secret; for public keys, what the cryptographic
    library accepts.  ([KOther 0] is no key.) *)
Inductive genuine (A : asymlib) : string -> key -> string -> string -> Prop :=
| gn_secret alg H block b msg sig : hs_alg alg H block -> rfc2104 H block b msg sig -> genuine A alg (KBytes b) msg sig
| gn_rsa alg n msg sig : In alg ["RS256"; "RS384"; "RS512"; "PS256"; "PS384"; "PS512"] ->
    as_verify A alg (KRsaPub n) msg sig = true -> genuine A alg (KRsaPub n) msg sig
| gn_curve alg n msg sig : In alg ["ES256"; "ES384"; "ES512"; "EdDSA"] -> n <> 0%N ->
    as_verify A alg (KOther n) msg sig = true -> genuine A alg (KOther n) msg sig.

(** Claims that can be written down: distinct names in UTF-8, 64-bit integers. *)
Definition writable_claims (cs : claimset) : Prop :=
  NoDup (map fst cs) /\ (forall k, In k (map fst cs) -> utf8 k) /\
  forall k z, In (k, CInt z) cs -> is_int64 z = true.

(** Numbers that a float64 holds exactly. *)
Definition small_claims (cs : claimset) : Prop := forall k z, In (k, CInt z) cs -> (- 2 ^ 53 <= z <= 2 ^ 53)%Z.

(** ** Reading other people's tokens *)

(** [out] is what lenient base64url makes of [s]: line breaks are skipped, every other
    character stands for six bits, and the bits that do not fill a byte are dropped. *)
Definition line_break (a : ascii) : bool := (Ascii.eqb a "010" || Ascii.eqb a "013")%bool.
Definition base64url_of (s out : string) : Prop :=
  exists groups rest,
    Forall2 (fun c g => List.length g = 6%nat /\ nth_error b64url_alphabet (bits_value g) = Some c)
            (filter (fun a => negb (line_break a)) (list_ascii_of_string s)) groups /\
    List.concat groups = (flat_map byte_bits (list_ascii_of_string out) ++ rest)%list /\ (List.length rest < 6)%nat.

(** The last member with this name. *)
Definition member (l : list (string * fval)) (k : string) (v : fval) : Prop :=
  exists l1 l2, l = (l1 ++ (k, v) :: l2)%list /\ ~ In k (map fst l2).

(** Three parts between two dots: a JSON object as header, a JSON object as payload (what
    follows it is ignored), and a signature over the first two. *)
Definition jws (raw : string) (header claims : list (string * fval)) (signed sig : string) : Prop :=
  exists h p s hd pd,
    Forall (fun x => ~ In "."%char (list_ascii_of_string x)) [h; p; s] /\
    signed = (h ++ "." ++ p)%string /\ raw = (signed ++ "." ++ s)%string /\
    base64url_of h hd /\ base64url_of p pd /\ base64url_of s sig /\
    reads_as hd (FObj header) /\ begins_with pd (FObj claims).

(** The text of a member, "" if there is none. *)
Definition text_of (l : list (string * fval)) (k s : string) : Prop :=
  member l k (FStr s) \/ s = "" /\ forall t, ~ member l k (FStr t).

(** The times in the claims are numbers and [now] is within them; 0 means no limit. *)
Definition in_time (claims : list (string * fval)) (now : Z) : Prop :=
  (forall v, member claims "exp" v -> exists z, v = FNum z /\ (z = 0 \/ now <= z)%Z) /\
  (forall v, member claims "iat" v -> exists z, v = FNum z /\ (z = 0 \/ z <= now)%Z) /\
  (forall v, member claims "nbf" v -> exists z, v = FNum z /\ (z = 0 \/ z <= now)%Z).

(** [raw] is an assertion of client [c], checked by the calls [evs]: signed under a key the
    client has published for its algorithm and key name, in time, not seen before, and
    addressed to the issuer. *)
Definition good_assertion (A : asymlib) (raw : string) (c : client) (claims : list (string * fval)) (evs : list event) : Prop :=
  exists header signed sig alg kid k now exp iat jti iss,
    jws raw header claims signed sig /\ member header "alg" (FStr alg) /\ text_of header "kid" kid /\
    c_assertion_key c alg kid = Some k /\ genuine A alg k signed sig /\
    in_time claims now /\ member claims "exp" (FNum exp) /\ text_of claims "jti" jti /\
    (member claims "iat" (FNum iat) \/ iat = (-1)%Z /\ forall z, ~ member claims "iat" (FNum z)) /\
    member claims "aud" (FStr iss) /\ iss <> "" /\
    evs = [Ev OJwtNow now; Ev (ORecord (c_id c) jti iat exp) None; Ev OIssuer iss].
