(** * crypto/key.go: key files and key sets.

    The x509 and jwk libraries are oracles; encoding/pem is modelled in Pem.v.  An RSA key
    is represented by a string (as in the model of jwk_endpoint.go in Misc.v). *)
From Verif Require Import Core Json Misc Pem.

(** What x509.ParsePKIXPublicKey returns: an RSA key or some other kind of key. *)
Inductive pkix := PkRsa (k : string) | PkOther (n : nat).

(** A key of a parsed key set.  [j_rsa = None]: not a *jwk.RSAPublicKey; [Some m]: it
    is one, and [m] is the value Materialize returns ([None]: nil and an error). *)
Record jwk := Jwk { j_kid : string; j_rsa : option (option string) }.

Record cryptolib := CryptoLib {
  k_pkix : string -> option pkix;                    (* x509.ParsePKIXPublicKey *)
  k_pkcs1 : string -> option string;                 (* x509.ParsePKCS1PrivateKey *)
  k_new : string -> bool;                            (* jwk.New succeeds *)
  k_marshal : kvs -> option string;                  (* json.MarshalIndent of a key set *)
  k_parse : string -> option (list jwk) }.           (* jwk.ParseString *)

(** How a loader ends. *)
Inductive loaded := Loaded (k : string) | LoadError (msg : string) | LoadPanic.

(** crypto/key.go:15-30 [PublicKeysJWK], for one iteration order of the map *)
Definition public_keys_jwk (L : cryptolib) (keys : kvs) : option string :=
  if forallb (fun kv => k_new L (snd kv)) keys then k_marshal L keys else None.

(** crypto/key.go:32-48 [LoadPublicKeyFromJWK]; the type assertion on a nil interface
    panics.  (Set.LookupKeyID keeps the keys with the given ID, in order.) *)
Definition load_public_jwk (L : cryptolib) (doc kid : string) : loaded :=
  match k_parse L doc with
  | None => LoadError "parse"
  | Some keys =>
      match filter (fun k => j_kid k =s? kid) keys with
      | [] => LoadError "indicated key id not found"
      | k :: _ =>
          match j_rsa k with
          | None => LoadError "indicated key is not a public key"
          | Some None => LoadPanic
          | Some (Some key) => Loaded key
          end
      end
  end.

(** crypto/key.go:62-79 [LoadPublicKeyFromData] *)
Definition load_public_data (L : cryptolib) (data : string) : loaded :=
  match pem_decode data with
  | None => LoadError "failed to decode pem block"
  | Some (typ, der) =>
      if negb (typ =s? "PUBLIC KEY") then LoadError "PEM block isn't a RSA PRIVATE KEY"
      else match k_pkix L der with
           | None => LoadError "public key can't be decoded"
           | Some (PkOther _) => LoadError "couldn't convert to a RSA public key"
           | Some (PkRsa k) => Loaded k
           end
  end.
(** crypto/key.go:58-60 [LoadPublicKeyFromText] *)
Definition load_public_text (L : cryptolib) (text : string) : loaded := load_public_data L text.
(** crypto/key.go:50-56 [LoadPublicKeyFromFile]; [content] is what ReadFile returns *)
Definition load_public_file (L : cryptolib) (content : option string) : loaded :=
  match content with
  | None => LoadError "failed to read PEM file"
  | Some data => load_public_data L data
  end.

(** crypto/key.go:93-106 [LoadPrivateKeyFromData] *)
Definition load_private_data (L : cryptolib) (data : string) : loaded :=
  match pem_decode data with
  | None => LoadError "failed to decode pem block"
  | Some (typ, der) =>
      if negb (typ =s? "RSA PRIVATE KEY") then LoadError "PEM block isn't a RSA PRIVATE KEY"
      else match k_pkcs1 L der with
           | None => LoadError "private key can't be decoded"
           | Some k => Loaded k
           end
  end.
(** crypto/key.go:89-91 [LoadPrivateKeyFromText] *)
Definition load_private_text (L : cryptolib) (text : string) : loaded := load_private_data L text.
(** crypto/key.go:81-87 [LoadPrivateKeyFromFile] *)
Definition load_private_file (L : cryptolib) (content : option string) : loaded :=
  match content with
  | None => LoadError "failed to read PEM file"
  | Some data => load_private_data L data
  end.

(** jwk_endpoint.go:20-34: what is stored by [AddFromText] ([None]: panic) *)
Definition jwk_loader (L : cryptolib) (pem : string) : option string :=
  match load_public_text L pem with Loaded k => Some k | _ => None end.
