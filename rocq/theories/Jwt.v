(** * github.com/golang-jwt/jwt v3.2.2, the JWT library goidc imports
    (id_token/id_token.go:12, token_endpoint.go:7, grant/jwt.go:8,
    authorization_endpoint.go:9), as an instance of [jwtlib].

    Modelled: compact serialization, base64url, JSON of header and claims, the check of
    the times, HMAC signatures.  RSA, ECDSA and EdDSA signatures are oracles
    ([asymlib]); which Go types of key they take is modelled. *)
From Verif Require Import GoStr Codec Json JsonParse JsonFull Core Sha Utils.

(** ** base64.RawURLEncoding (the library's EncodeSegment and DecodeSegment) *)

(** Decoding skips '\r' and '\n', takes no padding and ignores left-over bits. *)
Fixpoint raw_quanta (s : string) : option string :=
  match s with
  | EmptyString => Some ""
  | String a (String b EmptyString) =>
      match char_sx B64Url a, char_sx B64Url b with
      | Some p, Some q => Some (String (byte_a p q) "")
      | _, _ => None
      end
  | String a (String b (String c EmptyString)) =>
      match char_sx B64Url a, char_sx B64Url b, char_sx B64Url c with
      | Some p, Some q, Some r => Some (String (byte_a p q) (String (byte_b q r) ""))
      | _, _, _ => None
      end
  | String a (String b (String c (String d s'))) =>
      match char_sx B64Url a, char_sx B64Url b, char_sx B64Url c, char_sx B64Url d, raw_quanta s' with
      | Some p, Some q, Some r, Some t, Some rest =>
          Some (String (byte_a p q) (String (byte_b q r) (String (byte_c r t) rest)))
      | _, _, _, _, _ => None
      end
  | _ => None
  end.
Definition raw_decode (s : string) : option string := raw_quanta (strip_nl s).

(** ** crypto/hmac *)
Definition xor_byte (n : N) (a : ascii) : ascii := ascii_of_N (N.lxor (N_of_ascii a) n).
Fixpoint map_bytes (f : ascii -> ascii) (s : string) : string :=
  match s with
  | EmptyString => ""
  | String a r => String (f a) (map_bytes f r)
  end.
Fixpoint zeros (n : nat) : string := match n with O => "" | S n' => String nul (zeros n') end.
(** [hmac.New(H, key)]: a key longer than a block is hashed, a shorter one filled up with
    zeros. *)
Definition block_key (H : string -> string) (block : nat) (k : string) : string :=
  let k' := if Nat.ltb block (String.length k) then H k else k in
  (k' ++ zeros (block - String.length k'))%string.
Definition hmac (H : string -> string) (block : nat) (k msg : string) : string :=
  let b := block_key H block k in
  H (map_bytes (xor_byte 92) b ++ H (map_bytes (xor_byte 54) b ++ msg))%string.

(** ** Signing methods *)

(** SigningMethodHS256, -384, -512: hash and block size. *)
Definition hs_method (alg : string) : option (string -> string -> string) :=
  if alg =s? "HS256" then Some (hmac sha256 64)
  else if alg =s? "HS384" then Some (hmac sha384 128)
  else if alg =s? "HS512" then Some (hmac sha512 128)
  else None.

Definition rsa_alg (alg : string) : bool := existsb (seqb alg) ["RS256"; "RS384"; "RS512"; "PS256"; "PS384"; "PS512"].
Definition curve_alg (alg : string) : bool := existsb (seqb alg) ["ES256"; "ES384"; "ES512"; "EdDSA"].

(** [jwt.GetSigningMethod(alg) != nil] *)
Definition known_alg (alg : string) : bool :=
  (match hs_method alg with Some _ => true | None => false end || rsa_alg alg || curve_alg alg || (alg =s? "none"))%bool.

(** Public-key signatures: [as_sign alg key message], [as_verify alg key message signature]. *)
Record asymlib := AsymLib {
  as_sign : string -> key -> string -> option string;
  as_verify : string -> key -> string -> string -> bool }.

(** The Go types: RSA methods sign with a *rsa.PrivateKey and verify with a *rsa.PublicKey.
    [KOther 0] stands for a nil key.  The [KOther] keys are elliptic-curve keys; the
    library's constant UnsafeAllowNoneSignatureType is not among the keys. *)
Definition other_key (k : key) : bool := match k with KOther n => negb (N.eqb n 0) | _ => false end.
Definition signs_with (alg : string) (k : key) : bool :=
  ((rsa_alg alg && match k with KRsaPriv _ => true | _ => false end) || (curve_alg alg && other_key k))%bool.
Definition verifies_with (alg : string) (k : key) : bool :=
  ((rsa_alg alg && match k with KRsaPub _ => true | _ => false end) || (curve_alg alg && other_key k))%bool.

(** [Method.Sign]; the method "none" refuses every key here. *)
Definition method_sign (A : asymlib) (alg : string) (k : option key) (input : string) : option string :=
  match k with
  | None => None
  | Some k =>
      match hs_method alg with
      | Some mac => match k with KBytes b => Some (mac b input) | _ => None end
      | None => if signs_with alg k then as_sign A alg k input else None
      end
  end.

(** [Method.Verify] of an encoded signature. *)
Definition method_verify (A : asymlib) (alg : string) (k : key) (input sig : string) : bool :=
  match raw_decode sig with
  | None => false
  | Some x =>
      match hs_method alg with
      | Some mac => match k with KBytes b => (mac b input =s? x)%string | _ => false end
      | None => (verifies_with alg k && as_verify A alg k input x)%bool
      end
  end.

(** ** Parser.ParseUnverified *)

(** A JSON value as a claim or header field: [float64], [string], or another type. *)
Definition as_jval (v : fval) : jval :=
  match v with FStr s => JStr s | FNum z => JFloat z | _ => JOther end.
(** Into a map: of several members with the same name the last one counts; null leaves the
    map as it was, empty. *)
Definition as_jmap (v : fval) : option jmap :=
  match v with
  | FObj l => Some (rev (map (fun p => (fst p, as_jval (snd p))) l))
  | FNull => Some []
  | _ => None
  end.

Definition go_parse (raw : string) : jparsed :=
  match split_on "." raw with
  | [h; c; _] =>
      match raw_decode h with
      | None => PMalformed
      | Some hd =>
          match (match unmarshal hd with Some v => as_jmap v | None => None end) with
          | None => PMalformed
          | Some header =>
              match raw_decode c with
              | None => PMalformed
              | Some cd =>
                  match (match decode_one cd with Some v => as_jmap v | None => None end) with
                  | None => PMalformed
                  | Some claims =>
                      match jstr "alg" header with
                      | None => PNoAlg
                      | Some alg => if known_alg alg then PToken (JToken header claims) else PNoAlg
                      end
                  end
              end
          end
      end
  | _ => PMalformed
  end.

(** The signature of a parsed token under the method its header names. *)
Definition go_verify (A : asymlib) (raw : string) (k : key) : bool :=
  match go_parse raw, split_on "." raw with
  | PToken t, [h; c; s] =>
      match jstr "alg" (jt_header t) with
      | Some alg => method_verify A alg k (h ++ "." ++ c) s
      | None => false
      end
  | _, _ => false
  end.

(** ** MapClaims.Valid: a time that is absent or 0 is not looked at; one that is not a
    number is a fault. *)
Definition bad_time (ok : Z -> bool) (v : option jval) : bool :=
  match v with
  | None => false
  | Some (JFloat z) => (negb (Z.eqb z 0) && negb (ok z))%bool
  | Some (JNumber o) => let z := match o with Some z => z | None => 0%Z end in (negb (Z.eqb z 0) && negb (ok z))%bool
  | Some _ => true
  end.
Definition go_claims (now : Z) (m : jmap) : cflags :=
  CFlags (bad_time (fun exp => now <=? exp)%Z (jget "exp" m))
         (bad_time (fun iat => iat <=? now)%Z (jget "iat" m))
         (bad_time (fun nbf => nbf <=? now)%Z (jget "nbf" m)).

(** ** Token.SignedString: maps are marshalled with their keys sorted. *)
Fixpoint insert_member (x : string * json) (l : list (string * json)) : list (string * json) :=
  match l with
  | [] => [x]
  | y :: ys => if sle (fst x) (fst y) then x :: y :: ys else y :: insert_member x ys
  end.
Fixpoint sort_members (l : list (string * json)) : list (string * json) :=
  match l with
  | [] => []
  | x :: xs => insert_member x (sort_members xs)
  end.
Definition claim_json (p : string * cval) : string * json :=
  (fst p, match snd p with CStr s => JSString s | CInt z => JSInt z end).
Definition header_members (alg : string) (kid : option string) : list (string * json) :=
  ([("typ", JSString "JWT"); ("alg", JSString alg)] ++ match kid with Some k => [("kid", JSString k)] | None => [] end)%list.
Definition segment (l : list (string * json)) : string := b64url_nopad (jprint (JSObj (sort_members l))).
Definition signing_input (alg : string) (kid : option string) (cs : claimset) : string :=
  (segment (header_members alg kid) ++ "." ++ segment (map claim_json cs))%string.
Definition go_sign (A : asymlib) (alg : string) (kid : option string) (cs : claimset) (k : option key) : option string :=
  match method_sign A alg k (signing_input alg kid cs) with
  | Some sig => Some (signing_input alg kid cs ++ "." ++ b64url_nopad sig)%string
  | None => None
  end.

Definition gojwt (A : asymlib) : jwtlib := JwtLib go_parse go_claims (go_verify A) known_alg (go_sign A).
