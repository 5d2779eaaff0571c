(** * id_token/id_token.go *)
From Verif Require Import Core Sha.

(** id_token/id_token.go:15-28 [Hash]; [None] is the error result.  Note the
    encoding: padded standard base64. *)
Definition id_hash (alg token : string) : option string :=
  if has_suffix "256" alg then Some (b64_encode B64Std (substring 0 16 (sha256 token)))
  else if has_suffix "384" alg then Some (b64_encode B64Std (substring 0 24 (sha384 token)))
  else if has_suffix "512" alg then Some (b64_encode B64Std (substring 0 32 (sha512 token)))
  else None.

Definition opt_claim (b : bool) (k : string) (v : cval) : claimset := if b then [(k, v)] else [].

(** id_token/id_token.go:94-118: the claims [rawGen] puts into the token. *)
Definition raw_claims (iss aud sub nonce : string) (exp auth_time iat : Z) (at_hash c_hash : string)
  : claimset :=
  ([("iss", CStr iss); ("aud", CStr aud); ("sub", CStr sub); ("exp", CInt exp)]
   ++ opt_claim (negb (nonce =s? "")) "nonce" (CStr nonce)
   ++ opt_claim (0 <=? iat)%Z "iat" (CInt iat)
   ++ opt_claim (0 <=? auth_time)%Z "auth_time" (CInt auth_time)
   ++ opt_claim (negb (at_hash =s? "")) "at_hash" (CStr at_hash)
   ++ opt_claim (negb (c_hash =s? "")) "c_hash" (CStr c_hash))%list.

(** id_token/id_token.go:86-120 [rawGen] *)
Definition raw_gen (J : jwtlib) (alg : string) (k : option key) (kid iss aud sub nonce : string)
  (exp auth_time iat : Z) (at_hash c_hash : string) : option string :=
  if jl_has_alg J alg then
    jl_sign J alg (if kid =s? "" then None else Some kid)
            (raw_claims iss aud sub nonce exp auth_time iat at_hash c_hash) k
  else None.

(** id_token/id_token.go:30-41 [Gen] *)
Definition gen (J : jwtlib) (alg : string) (k : option key) (kid iss aud sub nonce : string)
  (expires auth_time now : Z) : option string :=
  raw_gen J alg k kid iss aud sub nonce (add64 now expires) auth_time now "" "".

(** id_token/id_token.go:43-61 [GenForImplicit] *)
Definition gen_implicit (J : jwtlib) (alg : string) (k : option key) (kid iss aud sub nonce : string)
  (expires auth_time : Z) (access_token : string) (now : Z) : option string :=
  match (if access_token =s? "" then Some "" else id_hash alg access_token) with
  | None => None
  | Some ah => raw_gen J alg k kid iss aud sub nonce (add64 now expires) auth_time now ah ""
  end.

(** id_token/id_token.go:63-84 [GenForHybrid] *)
Definition gen_hybrid (J : jwtlib) (alg : string) (k : option key) (kid iss aud sub nonce : string)
  (expires auth_time : Z) (access_token code : string) (now : Z) : option string :=
  match (if access_token =s? "" then Some "" else id_hash alg access_token) with
  | None => None
  | Some ah =>
      match id_hash alg code with
      | None => None
      | Some ch => raw_gen J alg k kid iss aud sub nonce (add64 now expires) auth_time now ah ch
      end
  end.
