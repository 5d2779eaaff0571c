(** * Vocabulary of the property statements.

    These definitions do not model code.  They are what the theorems are stated
    with, kept independent of the model's helper functions. *)
From Coq Require Import Sorted Permutation.
From Verif Require Import GoStr Codec Utils Core.

(** ** Words *)

(** [l] is the list of space-separated words of [s]. *)
Definition words_of (s : string) (l : list string) : Prop :=
  l <> [] /\ Forall (fun w => ~ In " "%char (list_ascii_of_string w)) l /\ s = String.concat " " l.

(** Lexicographic order on byte strings. *)
Definition bytes_le (a b : string) : Prop := String.compare a b <> Gt.

(** ** RFC 4648 section 5, without padding *)

Definition b64url_alphabet : list ascii := list_ascii_of_string
  "ABCDEFGHIJKLMNOPQRSTUVWXYZabcdefghijklmnopqrstuvwxyz0123456789-_".

(** The bits of a byte, most significant first. *)
Definition byte_bits (a : ascii) : list bool :=
  let 'Ascii b0 b1 b2 b3 b4 b5 b6 b7 := a in [b7; b6; b5; b4; b3; b2; b1; b0].

Definition bits_value (l : list bool) : nat :=
  fold_left (fun (acc : nat) (b : bool) => (2 * acc + (if b then 1 else 0))%nat) l 0%nat.

(** Groups of six bits; the last one is filled up with zeros. *)
Fixpoint six_bit_groups (l : list bool) : list (list bool) :=
  match l with
  | [] => []
  | [a] => [[a; false; false; false; false; false]]
  | [a; b] => [[a; b; false; false; false; false]]
  | [a; b; c] => [[a; b; c; false; false; false]]
  | [a; b; c; d] => [[a; b; c; d; false; false]]
  | [a; b; c; d; e] => [[a; b; c; d; e; false]]
  | a :: b :: c :: d :: e :: f :: r => [a; b; c; d; e; f] :: six_bit_groups r
  end.

Definition rfc4648_url (s : string) : string :=
  string_of_list_ascii
    (map (fun g => nth (bits_value g) b64url_alphabet "="%char)
         (six_bit_groups (flat_map byte_bits (list_ascii_of_string s)))).

(** ** Traces *)

(** The operations of a trace. *)
Definition ops (tr : list event) : list op := map ev_op tr.

(** Methods of the data layer (bridge.DataInterface). *)
Definition is_data (o : op) : bool :=
  match o with
  | OIssuer | OFindClient _ | OFindSession _ | OFindActiveInfo _ | OFindInfo _ _
  | OFindByAccess _ | OFindByRefresh _ | OCreateToken _ _ | ORefresh _ _ | OFindUser _ _
  | OCreateInfo _ _ _ | OCreateSession _ _ | ODisable _ | OFindUserBySub _
  | ORecord _ _ _ _ => true
  | _ => false
  end.

(** Data-layer methods that change what the data layer holds. *)
Definition is_update (o : op) : bool :=
  match o with
  | OCreateToken _ _ | ORefresh _ _ | OCreateInfo _ _ _ | OCreateSession _ _ | ODisable _
  | ORecord _ _ _ _ => true
  | _ => false
  end.

(** Writes to the http.ResponseWriter. *)
Definition is_http (o : op) : bool :=
  match o with
  | OSetHeader _ _ | OStatus _ | OBody _ | ORedirect _ => true
  | _ => false
  end.

(** The data-layer calls of a run, with their answers, in order. *)
Definition data_calls (tr : list event) : list event := filter (fun e => is_data (ev_op e)) tr.

(** Data-layer calls and clock readings. *)
Definition is_call (o : op) : bool :=
  match o with
  | ONow | OJwtNow => true
  | _ => is_data o
  end.
Definition calls (tr : list event) : list event := filter (fun e => is_call (ev_op e)) tr.

(** What a run wrote to the response, in order. *)
Definition http_ops (tr : list event) : list op := filter is_http (ops tr).

(** The status lines it wrote. *)
Definition statuses (tr : list event) : list Z :=
  flat_map (fun o => match o with OStatus n => [n] | _ => [] end) (ops tr).

(** The attribute maps it logged. *)
Definition logged (tr : list event) : list kvs :=
  flat_map (fun o => match o with OLog _ _ a => [a] | _ => [] end) (ops tr).

(** Two classes of bad answers a data layer can give. *)
Inductive failure := Refused | Broken.

Definition err_failure (e : option err_type) : option failure :=
  match e with
  | None => None
  | Some ErrFailed => Some Refused
  | Some _ => Some Broken
  end.
Definition dres_failure {A} (x : dres A) : option failure :=
  match x with
  | (_, Some ErrFailed) => Some Refused
  | (_, Some _) => Some Broken
  | (None, None) => Some Broken
  | (Some _, None) => None
  end.

(** Did this data-layer call answer with an error (or with nil and no error)? *)
Definition data_failure (e : event) : option failure :=
  match e with
  | Ev o a =>
      (match o as o0 return ans o0 -> option failure with
       | OFindClient _ => dres_failure
       | OFindSession _ => dres_failure
       | OFindActiveInfo _ => dres_failure
       | OFindInfo _ _ => dres_failure
       | OCreateInfo _ _ _ => dres_failure
       | OFindByAccess _ => dres_failure
       | OFindByRefresh _ => dres_failure
       | OCreateToken _ _ => dres_failure
       | ORefresh _ _ => dres_failure
       | OFindUser _ _ => fun x => err_failure (snd x)
       | OFindUserBySub _ => fun x => err_failure (snd x)
       | OCreateSession _ _ => err_failure
       | ODisable _ => err_failure
       | ORecord _ _ _ _ => err_failure
       | _ => fun _ => None
       end) a
  end.

(** A complete HTTP answer: headers, one status line, one body. *)
Definition answer (hs : kvs) (st : Z) (body : string) : list op :=
  (map (fun p => OSetHeader (fst p) (snd p)) hs ++ [OStatus st; OBody body])%list.
