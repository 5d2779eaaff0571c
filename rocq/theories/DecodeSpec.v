(** * Vocabulary: what a stored authorization request is read as.

    The JSON texts are those of JsonSpec.v (RFC 8259).  These definitions model no code of
    /repo. *)
From Verif Require Import GoStr Utils Core JsonSpec.

(** ** base64url (RFC 4648, 5), as far as it goes.  Characters stand for six bits each; four
    of them for three bytes.  The text is read up to the first group that is none; a padded
    group ends it. *)
Definition url_alphabet : list ascii :=
  list_ascii_of_string "ABCDEFGHIJKLMNOPQRSTUVWXYZabcdefghijklmnopqrstuvwxyz0123456789-_".
Definition stands (a : ascii) (n : N) : Prop := nth_error url_alphabet (N.to_nat n) = Some a.
Inductive group : string -> string -> Prop :=
| gr_3 a b c d p q r t x y z : stands a p -> stands b q -> stands c r -> stands d t ->
    (((p * 64 + q) * 64 + r) * 64 + t = (N_of_ascii x * 256 + N_of_ascii y) * 256 + N_of_ascii z)%N ->
    group (String a (String b (String c (String d "")))) (String x (String y (String z ""))).
Inductive last_group : string -> string -> Prop :=
| gr_2 a b c p q r x y rest : stands a p -> stands b q -> stands c r -> (rest < 4)%N ->
    ((p * 64 + q) * 64 + r = (N_of_ascii x * 256 + N_of_ascii y) * 4 + rest)%N ->
    last_group (String a (String b (String c "="))) (String x (String y ""))
| gr_1 a b p q x rest : stands a p -> stands b q -> (rest < 16)%N ->
    (p * 64 + q = N_of_ascii x * 16 + rest)%N ->
    last_group (String a (String b "==")) (String x "").
Inductive base64url : string -> string -> Prop :=
| b6_more g x s d : group g x -> base64url s d -> base64url (g ++ s) (x ++ d)
| b6_last g x s : last_group g x -> base64url (g ++ s) x
| b6_end s : (forall g x r, group g x \/ last_group g x -> s <> (g ++ r)%string) -> base64url s "".
(** Line breaks do not count. *)
Definition without_breaks (s : string) : string :=
  string_of_list_ascii (filter (fun a => negb (Ascii.eqb a "010" || Ascii.eqb a "013")) (list_ascii_of_string s)).

(** ** Members of a JSON object *)
Definition member : Type := string * rvalue.

(** A member counts for a field if their names differ in the case of letters only; the
    long s counts as an s, the Kelvin sign as a k. *)
Definition same_letter (a b : ascii) : Prop :=
  a = b \/ (65 <= N_of_ascii a <= 90 /\ N_of_ascii b = N_of_ascii a + 32)%N \/ (65 <= N_of_ascii b <= 90 /\ N_of_ascii a = N_of_ascii b + 32)%N.
Inductive named : string -> string -> Prop :=
| nm_nil : named "" ""
| nm_char a b k key : same_letter a b -> named k key -> named (String a k) (String b key)
| nm_long_s a k key : In a ["s"; "S"]%char -> named k key -> named (String a k) (String "197" (String "191" key))
| nm_kelvin a k key : In a ["k"; "K"]%char -> named k key -> named (String a k) (String "226" (String "132" (String "170" key))).

(** The values a field takes: strings, whole numbers of 64 bits, booleans. *)
Definition a_string (v : rvalue) (s : string) : Prop := exists raw, v = RStr raw s.
Definition an_int (v : rvalue) (z : Z) : Prop :=
  exists minus d, v = RNum (Number minus d "" None) /\ z = signed minus (decimal d) /\ (- 2 ^ 63 <= z < 2 ^ 63)%Z.
Definition a_bool (v : rvalue) (b : bool) : Prop := v = RBool b.
(** A flow type, written without escapes. *)
Definition a_type (v : rvalue) (t : flow_type) : Prop := exists s, v = RStr (flow_name t) s.

(** The field [k] has the value [x]: that of the last member of its name that has one it
    takes, otherwise [zero]. *)
Definition has_value {A} (takes : rvalue -> A -> Prop) (zero : A) (k : string) (l : list member) (x : A) : Prop :=
  (exists l1 key v l2, l = (l1 ++ (key, v) :: l2)%list /\ named k key /\ takes v x /\
     forall key' v', In (key', v') l2 -> named k key' -> forall y, ~ takes v' y) \/
  (x = zero /\ forall key v, In (key, v) l -> named k key -> forall y, ~ takes v y).

(** A flow's type that is none ends the reading, there and then. *)
Definition bad_type (m : member) : Prop := named "type" (fst m) /\ forall t, ~ a_type (snd m) t.
Definition bad_flow (m : member) : Prop := named "flow" (fst m) /\ exists l, snd m = RObj l /\ Exists bad_type l.
Inductive considered (bad : member -> Prop) : list member -> list member -> Prop :=
| co_all l : ~ Exists bad l -> considered bad l l
| co_bad l m r : ~ Exists bad l -> bad m -> considered bad (l ++ m :: r) (l ++ [m]).

(** The members of the flow: those of all objects given for it together. *)
Inductive gathered : list member -> list member -> Prop :=
| ga_nil : gathered [] []
| ga_other k v l ms : ~ named "flow" k -> gathered l ms -> gathered ((k, v) :: l) ms
| ga_object k m m' l ms : named "flow" k -> considered bad_type m m' -> gathered l ms -> gathered ((k, RObj m) :: l) (m' ++ ms)
| ga_value k v l ms : named "flow" k -> v <> RNull -> (forall m, v <> RObj m) -> gathered l ms -> gathered ((k, v) :: l) ms.

(** null takes the flow away again. *)
Definition flow_value (l : list member) (f : option flow) : Prop :=
  exists l1 l2 ms, l = (l1 ++ l2)%list /\ (l1 = [] \/ exists l0 k, l1 = (l0 ++ [(k, RNull)])%list /\ named "flow" k) /\ gathered l2 ms /\
    match f with
    | None => forall k v, In (k, v) l2 -> ~ named "flow" k
    | Some f => (exists k v, In (k, v) l2 /\ named "flow" k) /\
        has_value a_type FAuthorizationCode "type" ms (f_type f) /\
        has_value a_bool false "require_access_token" ms (f_access f) /\
        has_value a_bool false "require_id_token" ms (f_id f)
    end.

(** ** The request an object is read as *)
Definition read_as (l : list member) (q : arequest) : Prop :=
  exists l', considered bad_flow l l' /\
  Forall (fun p => has_value a_string "" (fst p) l' (snd p))
    [("client_id", rq_client q); ("scope", rq_scope q); ("redirect_uri", rq_redirect q); ("response_mode", rq_mode q);
     ("state", rq_state q); ("code_verifier", rq_verifier q); ("nonce", rq_nonce q); ("display", rq_display q);
     ("prompt", rq_prompt q); ("ui_locale", rq_locale q); ("id_token_hint", rq_idt_hint q); ("login_hint", rq_login_hint q)] /\
  has_value an_int 0%Z "max_age" l' (rq_max_age q) /\ flow_value l' (rq_flow q).

(** Nothing was said. *)
Definition empty_request : arequest := ARequest None "" "" "" "" "" "" "" "" "" 0 "" "" "".

(** The request the string [s] is read as. *)
Definition request_in (s : string) (q : arequest) : Prop :=
  exists data, base64url (without_breaks s) data /\
    ((exists l, go_text data (RObj l) /\ read_as l q) \/ ((forall l, ~ go_text data (RObj l)) /\ q = empty_request)).
