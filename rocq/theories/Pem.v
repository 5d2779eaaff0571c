(** * encoding/pem: [pem.Decode], as crypto/key.go:63,94 call it.

    Only the first block is modelled, and of it the type and the bytes: crypto/key.go
    ignores its headers and what follows it. *)
From Verif Require Import GoStr Codec Http.

(** [bytes.TrimRight(s, " \t")] *)
Fixpoint trim_blanks (s : string) : string :=
  match s with
  | EmptyString => ""
  | String a s' =>
      match trim_blanks s' with
      | EmptyString => if (Ascii.eqb a " " || Ascii.eqb a "009")%bool then "" else String a ""
      | t => String a t
      end
  end.
(** A last '\r' is dropped. *)
Fixpoint drop_cr (s : string) : string :=
  match s with
  | EmptyString => ""
  | String a EmptyString => if Ascii.eqb a "013" then "" else s
  | String a s' => String a (drop_cr s')
  end.
(** [getLine]: the first line without its end and without blanks at its end, and the rest. *)
Definition get_line (s : string) : string * string :=
  match cut "010" s with (l, r, ended) => (trim_blanks (if ended then drop_cr l else l), r) end.

(** [bytes.Index]: what precedes and what follows the first [p]. *)
Fixpoint index_of (p s : string) : option (string * string) :=
  match after_prefix p s with
  | Some r => Some ("", r)
  | None => match s with
            | EmptyString => None
            | String a s' => option_map (fun x => (String a (fst x), snd x)) (index_of p s')
            end
  end.

Definition pem_begin : string := "-----BEGIN ".
Definition pem_end : string := "-----END ".
Definition dashes : string := "-----".
Definition lf (s : string) : string := String "010" s.

(** [removeSpacesAndTabs] *)
Fixpoint without_blanks (s : string) : string :=
  match s with
  | EmptyString => ""
  | String a s' => if (Ascii.eqb a " " || Ascii.eqb a "009")%bool then without_blanks s' else String a (without_blanks s')
  end.

(** The header lines: are there any, and what follows; [None] if the text ends. *)
Fixpoint pem_headers (fuel : nat) (some : bool) (s : string) : option (bool * string) :=
  match fuel with
  | O => None
  | S fuel' =>
      if s =s? "" then None
      else let '(line, next) := get_line s in
           if has_byte ":" line then pem_headers fuel' true next else Some (some, s)
  end.

(** What follows the first "-----BEGIN " at the beginning of a line. *)
Definition pem_start (s : string) : option string :=
  match after_prefix pem_begin s with
  | Some r => Some r
  | None => option_map snd (index_of (lf pem_begin) s)
  end.
(** Body and what follows "-----END ". *)
Definition pem_stop (headers : bool) (s : string) : option (string * string) :=
  match (if headers then None else after_prefix pem_end s) with
  | Some r => Some ("", r)
  | None => index_of (lf pem_end) s
  end.
(** The end line: the type again, five dashes, and nothing but blanks. *)
Definition pem_closed (typ trailer : string) : bool :=
  let n := (String.length typ + 5)%nat in
  if Nat.ltb (String.length trailer) n then false
  else let e := substring 0 n trailer in
       (has_prefix typ e && has_suffix dashes e &&
        (fst (get_line (substring n (String.length trailer - n) trailer)) =s? ""))%bool.

(** [pem.Decode]; [decodeError] starts over with what is left.  [fuel] bounds the number of
    blocks that are tried; the length of the text is enough. *)
Fixpoint pem_decode_from (fuel : nat) (data : string) : option (string * string) :=
  match fuel with
  | O => None
  | S fuel' =>
      match pem_start data with
      | None => None
      | Some rest =>
          let '(line, rest) := get_line rest in
          if negb (has_suffix dashes line) then pem_decode_from fuel' rest
          else
            let typ := substring 0 (String.length line - 5) line in
            match pem_headers (S (String.length rest)) false rest with
            | None => None
            | Some (headers, rest) =>
                match pem_stop headers rest with
                | None => pem_decode_from fuel' rest
                | Some (body, trailer) =>
                    if pem_closed typ trailer then
                      match b64_decode B64Std (without_blanks body) with
                      | Some der => Some (typ, der)
                      | None => pem_decode_from fuel' rest
                      end
                    else pem_decode_from fuel' rest
                end
            end
      end
  end.
Definition pem_decode (data : string) : option (string * string) :=
  pem_decode_from (S (String.length data)) data.
