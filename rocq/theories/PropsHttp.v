(** * Parameters on the wire (C82). *)
From Coq Require Import Lia Permutation.
From Verif Require Import GoStr Codec StrFacts PropsCrypto Core Spec OAuthError TokenSpec Grants TokenEndpoint AuthzResponse AuthzEndpoint AuthzSpec
  ResourceProtector CodecSpec CodecFacts Http HttpSpec HttpFacts MultipartFacts Demo PropsCodec.

(** ** C82 Parameters arrive as they were sent. *)

(* A query or a body is read as what it stands for, no more and no less: any way of
   escaping will do, and components that stand for nothing are left out. *)
Theorem C82_forms_are_read_as_written : forall q l, form_text q l <-> parse_form q = l.
Proof. exact form_text_iff. Qed.
Print Assumptions C82_forms_are_read_as_written.

(* what trimming leaves was there before *)
Lemma trim_left_part s : exists p, s = (p ++ trim_left s)%string.
Proof. induction s as [|a s [p IH]]; [exists ""; reflexivity|]. cbn [trim_left]. destruct (white a); [exists (String a p); simpl; congruence|exists ""; reflexivity]. Qed.
Lemma trim_right_part s : exists q, s = (trim_right s ++ q)%string.
Proof.
  induction s as [|a s [q IH]]; [exists ""; reflexivity|]. cbn [trim_right]. destruct (trim_right s) as [|b u].
  - destruct (white a); [exists (String a s); reflexivity|exists s; reflexivity].
  - exists q. simpl in *. congruence.
Qed.
Lemma media_type_part ct : media_type ct <> "" -> exists p q, to_lower ct = (p ++ media_type ct ++ q)%string.
Proof.
  unfold media_type. destruct (cut ";" ct) as [[t r] more] eqn:E.
  assert (HC : exists r', ct = (t ++ r')%string).
  { clear - E. revert t r more E. induction ct as [|a ct IH]; intros t r more E; simpl in E.
    - injection E as <- <- <-. exists "". reflexivity.
    - destruct (Ascii.eqb a ";"); [injection E as <- <- <-; eexists; reflexivity|]. destruct (cut ";" ct) as [[x y] f] eqn:E2.
      injection E as <- <- <-. destruct (IH _ _ _ eq_refl) as [r' ->]. exists r'. reflexivity. }
  destruct HC as [r' HC]. destruct (if more then _ else _); [|congruence]. intros _.
  unfold trim_space. destruct (trim_left_part t) as [p Hp]. destruct (trim_right_part (trim_left t)) as [q Hq].
  exists (to_lower p), (to_lower q ++ to_lower r')%string.
  rewrite HC at 1. rewrite Hp at 1. rewrite Hq at 1. rewrite !to_lower_app, !app_assoc_s. reflexivity.
Qed.
Lemma parse_media_part ct t ps : parse_media ct = Some (t, ps) -> exists p q, to_lower ct = (p ++ t ++ q)%string.
Proof.
  unfold parse_media. destruct (cut ";" ct) as [[x r] more] eqn:E.
  assert (HC : exists r', ct = (x ++ r')%string).
  { clear - E. revert x r more E. induction ct as [|a ct IH]; intros x r more E; simpl in E.
    - injection E as <- <- <-. exists "". reflexivity.
    - destruct (Ascii.eqb a ";"); [injection E as <- <- <-; eexists; reflexivity|]. destruct (cut ";" ct) as [[y z] f] eqn:E2.
      injection E as <- <- <-. destruct (IH _ _ _ eq_refl) as [r' ->]. exists r'. reflexivity. }
  destruct HC as [r' HC]. destruct (if more then _ else _) as [l|]; [|discriminate]. cbn [option_map]. intros X. injection X as <- _.
  unfold trim_space. destruct (trim_left_part x) as [p Hp]. destruct (trim_right_part (trim_left x)) as [q Hq].
  exists (to_lower p), (to_lower q ++ to_lower r')%string.
  rewrite HC at 1. rewrite Hp at 1. rewrite Hq at 1. rewrite !to_lower_app, !app_assoc_s. reflexivity.
Qed.
Lemma no_multipart_parts w : no_multipart w -> wire_parts w = [].
Proof.
  intros H. unfold wire_parts. destruct (kv_get "Content-Type" (w_headers w)) as [ct|] eqn:E; [|reflexivity]. cbn [or_empty].
  destruct (parse_media ct) as [[t ps]|] eqn:EP; [|reflexivity]. destruct (seqP t "multipart/form-data") as [->|_]; [|reflexivity].
  destruct (parse_media_part _ _ _ EP) as (p & q & X). exfalso. exact (H _ _ _ E X).
Qed.
Lemma sent_parts w body query : sent w body query -> r_parts (arrives w) = [].
Proof. intros [_ [(_ & H & _)|(_ & H & _)]]; [exact (form_no_parts _ H)|exact (no_multipart_parts _ H)]. Qed.

(* What the handlers are told about a parameter is the first value sent for it,
   the body going before the query; nothing if none was sent.  Where only the body
   counts, only the body counts. *)
Theorem C82_parameters_arrive : forall w body query k, sent w body query ->
  (forall v, first_value k (body ++ query)%list v -> form_value (arrives w) k = v) /\
  ((forall v, ~ first_value k (body ++ query)%list v) -> form_value (arrives w) k = "") /\
  (forall v, first_value k body v -> post_form_value (arrives w) k = v) /\
  ((forall v, ~ first_value k body v) -> post_form_value (arrives w) k = "").
Proof.
  intros w body query k HS. destruct (sent_arrives _ _ _ HS) as (E1 & _ & E2).
  unfold form_value, post_form_value. rewrite E1, E2, (sent_parts _ _ _ HS), !app_nil_r.
  repeat split.
  - intros v Hv. apply first_get in Hv. rewrite Hv. reflexivity.
  - intros Hv. apply get_none in Hv. rewrite Hv. reflexivity.
  - intros v Hv. apply first_get in Hv. rewrite Hv. reflexivity.
  - intros Hv. apply get_none in Hv. rewrite Hv. reflexivity.
Qed.
Print Assumptions C82_parameters_arrive.

(* However the parameters are escaped, and whatever else that stands for nothing is
   mixed in: the same parameters with the same headers are the same request. *)
Theorem C82_escaping_does_not_matter : forall w1 w2 body query,
  sent w1 body query -> sent w2 body query -> w_method w1 = w_method w2 -> w_path w1 = w_path w2 -> w_headers w1 = w_headers w2 ->
  arrives w1 = arrives w2.
Proof.
  intros w1 w2 body query H1 H2 E1 E2 E3. destruct (sent_arrives _ _ _ H1) as (A1 & A2 & _). destruct (sent_arrives _ _ _ H2) as (B1 & B2 & _).
  pose proof (sent_parts _ _ _ H1) as A3. pose proof (sent_parts _ _ _ H2) as B3.
  destruct (arrives w1) as [m p h q b x] eqn:X. destruct (arrives w2) as [m' p' h' q' b' x'] eqn:Y. simpl in *.
  unfold arrives in X, Y. injection X as <- <- <- X1 X2 X3. injection Y as <- <- <- Y1 Y2 Y3. congruence.
Qed.
Print Assumptions C82_escaping_does_not_matter.

Lemma nodup_kv_get (l : kvs) k v : NoDup (map fst l) -> In (k, v) l -> kv_get k l = Some v.
Proof.
  induction l as [|[x y] l IH]; intros HN HI; [contradiction|]. inversion HN as [|? ? HX HK]; subst. cbn [kv_get].
  destruct (seqP k x) as [->|HD].
  - destruct HI as [HI|HI]; [congruence|]. exfalso. apply HX. apply (in_map fst) in HI. exact HI.
  - destruct HI as [HI|HI]; [congruence|]. apply IH; assumption.
Qed.


(* A multipart body does as well: whatever stands before the first delimiter and
   after the last, however its headers are spelled, and in whatever order, every field
   is read as it was sent.  Here the query goes before the body. *)
Theorem C82_multipart_parameters_arrive : forall w body query k, sent_multipart w body query ->
  (forall v, first_value k (query ++ body)%list v -> form_value (arrives w) k = v) /\
  ((forall v, ~ first_value k (query ++ body)%list v) -> form_value (arrives w) k = "") /\
  (forall v, first_value k body v -> post_form_value (arrives w) k = v) /\
  ((forall v, ~ first_value k body v) -> post_form_value (arrives w) k = "").
Proof.
  intros w body query k HS. destruct (multipart_arrives _ _ _ HS) as (E1 & E2 & E3).
  unfold form_value, post_form_value, post_form. rewrite E1, E2, E3.
  assert (P : forall l : kvs, (forall v, first_value k l v -> or_empty (kv_get k l) = v) /\ ((forall v, ~ first_value k l v) -> or_empty (kv_get k l) = "")).
  { intros l. split; [intros v Hv; apply first_get in Hv|intros Hv; apply get_none in Hv]; rewrite Hv; reflexivity. }
  destruct (has_body (arrives w)); cbn [app]; (split; [|split; [|split]]); apply P.
Qed.
Print Assumptions C82_multipart_parameters_arrive.

Lemma get_app k a b : kv_get k (a ++ b)%list = match kv_get k a with Some v => Some v | None => kv_get k b end.
Proof. induction a as [|[x v] a IH]; [reflexivity|]. cbn [app kv_get]. destruct (seqb k x); [reflexivity|exact IH]. Qed.
(* So it does not matter in which of the two ways a client sends its parameters, as
   long as it does not send one in the body and another value in the query. *)
Theorem C82_both_kinds_of_body : forall w1 w2 body query k,
  sent w1 body query -> sent_multipart w2 body query -> (forall v v', In (k, v) body -> ~ In (k, v') query) ->
  form_value (arrives w1) k = form_value (arrives w2) k /\ post_form_value (arrives w1) k = post_form_value (arrives w2) k.
Proof.
  intros w1 w2 body query k H1 H2 HK. destruct (sent_arrives _ _ _ H1) as (A1 & _ & A2). destruct (multipart_arrives _ _ _ H2) as (B1 & B2 & B3).
  unfold form_value, post_form_value. rewrite A1, A2, (sent_parts _ _ _ H1), B1, B3, !app_nil_r. unfold post_form. rewrite B2.
  assert (X : or_empty (kv_get k (body ++ query)%list) = or_empty (kv_get k (query ++ body)%list)).
  { rewrite !get_app. destruct (kv_get k body) as [v|] eqn:EB; destruct (kv_get k query) as [v'|] eqn:EQ; try reflexivity.
    exfalso. exact (HK _ _ (kv_get_in _ _ _ EB) (kv_get_in _ _ _ EQ)). }
  destruct (has_body (arrives w2)); cbn [app]; (split; [exact X|reflexivity]).
Qed.
Print Assumptions C82_both_kinds_of_body.

(* A body that is not announced as a form of either kind, or is urlencoded and longer than 10 MB, counts for
   nothing: in particular no client credentials and no access token are read from it. *)
Theorem C82_other_bodies_count_for_nothing : forall w k, no_multipart w ->
  kv_get "Content-Type" (w_headers w) = None \/
  (exists t, kv_get "Content-Type" (w_headers w) = Some t /\ forall a b, to_lower t <> (a ++ "application/x-www-form-urlencoded" ++ b)%string) \/
  (10485760 < N.of_nat (String.length (w_body w)))%N ->
  post_form_value (arrives w) k = "" /\ form_value (arrives w) k = or_empty (kv_get k (parse_form (w_query w))).
Proof.
  intros w k HN H.
  assert (E : r_body (arrives w) = []).
  { cbn [arrives r_body]. destruct H as [H|[(t & H & H1)|H]].
    - unfold form_body. rewrite H. cbn. rewrite andb_false_r. reflexivity.
    - destruct (form_body w) eqn:EF; [|rewrite andb_false_r; reflexivity]. exfalso. unfold form_body in EF. rewrite H in EF. cbn [or_empty] in EF.
      apply seqb_eq in EF. destruct (media_type_part t) as (p & q & X); [rewrite EF; discriminate|]. rewrite EF in X. exact (H1 _ _ X).
    - apply N.leb_gt in H. rewrite H, andb_false_r. reflexivity. }
  assert (EP : r_parts (arrives w) = []) by exact (no_multipart_parts _ HN).
  unfold post_form_value, form_value, post_form. rewrite E, EP, !app_nil_r. destruct (has_body (arrives w)); split; reflexivity.
Qed.
Print Assumptions C82_other_bodies_count_for_nothing.

(* The Content-Type decides: the body of a POST, PUT or PATCH request counts when the media
   type is that of forms, whatever its parameters - unless one of them is there twice
   with different values: then, and for every other media type but
   multipart/form-data, the body counts for nothing. *)
Theorem C82_content_type_decides : forall w ct t l body k,
  In (w_method w) ["POST"; "PUT"; "PATCH"] -> (N.of_nat (String.length (w_body w)) <= 10485760)%N -> form_text (w_body w) body ->
  kv_get "Content-Type" (w_headers w) = Some ct -> content_type ct t l ->
  (to_lower t = "application/x-www-form-urlencoded" -> one_value l ->
     post_form_value (arrives w) k = or_empty (kv_get k body)) /\
  (to_lower t <> "application/x-www-form-urlencoded" /\ to_lower t <> "multipart/form-data" \/ ~ one_value l ->
     post_form_value (arrives w) k = "" /\ form_value (arrives w) k = or_empty (kv_get k (parse_form (w_query w)))).
Proof.
  intros w ct t l body k HM HL HB HK HC. pose proof (media_type_text _ _ _ HC) as [T1 T2].
  assert (HF : has_body (arrives w) = true) by (apply body_method; exact HM).
  split.
  - intros Ht Ho. unfold post_form_value, post_form. rewrite HF. cbn [arrives r_body].
    assert (E : form_body w = true). { unfold form_body. rewrite HK. cbn [or_empty]. rewrite (T1 Ho), Ht. reflexivity. }
    rewrite (proj2 (reads_method w) HM), E. apply N.leb_le in HL. rewrite HL. apply form_text_iff in HB. rewrite HB.
    change (r_parts (arrives w)) with (wire_parts w).
    assert (EP : wire_parts w = []) by (apply form_no_parts; exists ct, t, l; auto). rewrite EP, app_nil_r. reflexivity.
  - intros H.
    assert (E : form_body w = false).
    { unfold form_body. rewrite HK. cbn [or_empty]. apply seqb_neq. intros X.
      destruct (one_value_dec l) as [Ho|Ho].
      - rewrite (T1 Ho) in X. destruct H as [[H _]|H]; contradiction.
      - rewrite (T2 Ho) in X. discriminate X. }
    assert (E2 : r_body (arrives w) = []) by (cbn [arrives r_body]; rewrite E, andb_false_r; reflexivity).
    assert (EP : r_parts (arrives w) = []).
    { cbn [arrives r_parts]. unfold wire_parts. rewrite HK. cbn [or_empty]. destruct (content_type_media _ _ _ HC) as [M1 M2].
      destruct (one_value_dec l) as [Ho|Ho].
      - destruct (M1 Ho) as (l' & -> & _). destruct H as [[_ H]|H]; [|contradiction]. apply seqb_neq in H. rewrite H. reflexivity.
      - rewrite (M2 Ho). reflexivity. }
    unfold post_form_value, form_value, post_form. rewrite E2, HF, EP, !app_nil_r. split; reflexivity.
Qed.
Print Assumptions C82_content_type_decides.

(* There and back: a code (or anything else) that the authorization endpoint sends in
   a redirect is read from the Location by any client that reads forms, and when
   the client sends it to the token endpoint, in whatever escaping, the grant gets
   what was sent. *)
Theorem C82_what_was_sent_comes_back : forall mode uri params tr k c,
  answered mode uri params tr -> mode <> "form_post" -> mode <> "fragment" -> no_byte "#" uri -> no_byte "?" uri ->
  NoDup (map fst params) -> In (k, c) params ->
  exists loc q l, http_ops tr = [ORedirect loc] /\ query_part loc q /\ form_text q l /\ first_value k l c /\
    forall w body query k', sent w body query -> first_value k' (body ++ query)%list c -> form_value (arrives w) k' = c.
Proof.
  intros mode uri params tr k c HA M1 M2 HF HQ HN HI.
  destruct (C44_query mode uri params tr [] HA M1 M2 HF (or_introl (conj HQ eq_refl))) as (loc & q & sorted & x & H1 & _ & H3 & _ & H5 & H6).
  exists loc, q, sorted. split; [exact H1|]. split; [exact H3|]. split; [apply form_text_iff; apply parse_query_form; exact H5|].
  split.
  - apply first_get. apply nodup_kv_get.
    + eapply Permutation_NoDup; [apply Permutation_map; apply Permutation_sym; exact H6|exact HN].
    + eapply Permutation_in; [apply Permutation_sym; exact H6|exact HI].
  - intros w body query k' HS Hv. apply (C82_parameters_arrive _ _ _ k' HS). exact Hv.
Qed.
Print Assumptions C82_what_was_sent_comes_back.

Lemma token_text_of t : ((negb (t =s? "") && forallb (fun a => has_byte a "!#$%&'*+-.^_`|~0123456789ABCDEFGHIJKLMNOPQRSTUVWXYZabcdefghijklmnopqrstuvwxyz") (list_ascii_of_string t))%bool = true) -> token_text t.
Proof.
  intros H. apply andb_true_iff in H. destruct H as [H1 H2]. split; [apply seqb_neq; apply negb_true_iff; exact H1|].
  intros a Ha. rewrite forallb_forall in H2. apply H2 in Ha. unfold tchar.
  destruct (in_dec ascii_dec a (list_ascii_of_string "!#$%&'*+-.^_`|~0123456789ABCDEFGHIJKLMNOPQRSTUVWXYZabcdefghijklmnopqrstuvwxyz")) as [HI|HI]; [exact HI|].
  apply no_byte_has in HI. congruence.
Qed.
Lemma plain_form w : kv_get "Content-Type" (w_headers w) = Some "application/x-www-form-urlencoded" -> says_form w.
Proof.
  intros H. exists "application/x-www-form-urlencoded", "application/x-www-form-urlencoded", []. split; [exact H|]. split.
  - exists "", "application", "x-www-form-urlencoded", "". split; [reflexivity|]. split; [intros a []|]. split; [reflexivity|].
    split; [apply token_text_of; reflexivity|]. split; [apply token_text_of; reflexivity|]. constructor. intros a [].
  - split; [reflexivity|]. intros k v v' [].
Qed.
(** A token request as a client might write it: lower case escapes, a parameter
    without a value, a stray '&', a broken escape, a parameter twice, and another
    code in the query. *)
Definition odd_request : wire :=
  Wire "POST" "/token" [("Content-Type", "  Application/X-WWW-Form-Urlencoded ; charset=""utf-8""; Charset=utf-8"); ("Authorization", "Basic xyz")]
    "code=from+query&state=a%26b"
    "grant_type=authorization%5fcode&&code=co%2fde%2B1&x&bad=%zz&a;b=c&code=second&redirect_uri=https://rp.example/cb?a=b".
Example C82_example :
  sent odd_request
    [("grant_type", "authorization_code"); ("code", "co/de+1"); ("x", ""); ("code", "second"); ("redirect_uri", "https://rp.example/cb?a=b")]
    [("code", "from query"); ("state", "a&b")] /\
  form_value (arrives odd_request) "code" = "co/de+1" /\ form_value (arrives odd_request) "state" = "a&b" /\
  form_value (arrives odd_request) "redirect_uri" = "https://rp.example/cb?a=b" /\
  post_form_value (arrives odd_request) "state" = "".
Proof.
  split.
  { split; [apply form_text_iff; vm_compute; reflexivity|]. left.
    split; [simpl; auto|]. split.
    - exists "  Application/X-WWW-Form-Urlencoded ; charset=""utf-8""; Charset=utf-8", "Application/X-WWW-Form-Urlencoded",
        [("charset", "utf-8"); ("charset", "utf-8")].
      split; [reflexivity|]. split; [|split; [reflexivity|]].
      + exists "  ", "Application", "X-WWW-Form-Urlencoded", " ; charset=""utf-8""; Charset=utf-8".
        split; [reflexivity|]. split; [intros a H; simpl in H; intuition auto|]. split; [reflexivity|].
        split; [apply token_text_of; reflexivity|]. split; [apply token_text_of; reflexivity|].
        apply (mp_param " " " " "charset" """utf-8""" "utf-8" "; Charset=utf-8"); [intros a H; simpl in H; intuition auto..|apply token_text_of; reflexivity| |].
        { apply (pv_quoted "utf-8"). repeat (apply iq_byte; [discriminate..|]). constructor. }
        apply (mp_param "" " " "Charset" "utf-8" "utf-8" ""); [intros a H; simpl in H; intuition auto..|apply token_text_of; reflexivity| |].
        { apply pv_token. apply token_text_of. reflexivity. }
        constructor. intros a [].
      + intros k v v' [E1|[E1|[]]] [E2|[E2|[]]]; congruence.
    - split; [vm_compute; discriminate|apply form_text_iff; vm_compute; reflexivity]. }
  repeat split.
Qed.
(** Two different values for charset: the body is not read. *)
Definition torn_request : wire :=
  Wire "POST" "/token" [("Content-Type", "application/x-www-form-urlencoded; charset=utf-8;charset=latin1")] "" "code=c1".
Example C82_torn_example :
  content_type "application/x-www-form-urlencoded; charset=utf-8;charset=latin1" "application/x-www-form-urlencoded"
    [("charset", "utf-8"); ("charset", "latin1")] /\
  ~ one_value [("charset", "utf-8"); ("charset", "latin1")] /\ form_text "code=c1" [("code", "c1")] /\
  form_value (arrives torn_request) "code" = "".
Proof.
  split; [|split; [|split; [apply form_text_iff; reflexivity|reflexivity]]].
  - exists "", "application", "x-www-form-urlencoded", "; charset=utf-8;charset=latin1".
    split; [reflexivity|]. split; [intros a []|]. split; [reflexivity|].
    split; [apply token_text_of; reflexivity|]. split; [apply token_text_of; reflexivity|].
    apply (mp_param "" " " "charset" "utf-8" "utf-8" ";charset=latin1"); [intros a H; simpl in H; intuition auto..|apply token_text_of; reflexivity| |].
    { apply pv_token. apply token_text_of. reflexivity. }
    apply (mp_param "" "" "charset" "latin1" "latin1" ""); [intros a H; simpl in H; intuition auto..|apply token_text_of; reflexivity| |].
    { apply pv_token. apply token_text_of. reflexivity. }
    constructor. intros a [].
  - intros H. specialize (H "charset" "utf-8" "latin1"). simpl in H. discriminate H; auto.
Qed.
(** The code of an authorization response, with bytes that need escaping. *)
Example C82_back_example :
  let params := [("code", "a b&c=d"); ("state", "s")] in
  let uri := "https://rp.example/cb" in
  answered "query" uri params [Ev (ORedirect (location RQuery uri params)) tt] /\
  NoDup (map fst params) /\ In ("code", "a b&c=d") params /\
  location RQuery uri params = "https://rp.example/cb?code=a+b%26c%3Dd&state=s" /\
  form_text "code=a+b%26c%3Dd&state=s" params /\ form_text "state=s&&code=%61%20b%26c%3dd" [("state", "s"); ("code", "a b&c=d")].
Proof.
  cbv zeta. split; [|split; [|split; [|split; [|split]]]]; try (vm_compute; reflexivity); try (apply form_text_iff; vm_compute; reflexivity).
  - exists [], [Ev (ORedirect (location RQuery "https://rp.example/cb" [("code", "a b&c=d"); ("state", "s")])) tt].
    split; [reflexivity|]. split; [reflexivity|]. apply sent_query; discriminate.
  - repeat constructor; simpl; intuition discriminate.
  - simpl. auto.
Qed.

(** A token request as a browser might send it: a preamble, a part with another header
    line, header names in another case, a value of two lines, and an epilogue. *)
Definition multipart_body : string :=
  "preamble" ++ CRLF ++ "--xYz" ++ CRLF ++
  "Content-Disposition: form-data; name=""grant_type""" ++ CRLF ++ CRLF ++ "authorization_code" ++ CRLF ++ "--xYz " ++ CRLF ++
  "content-type:text/plain" ++ CRLF ++ "content-disposition:FORM-DATA;Name=code" ++ CRLF ++ CRLF ++ "a" ++ CRLF ++ "--b" ++ CRLF ++ "--xYz--" ++ CRLF ++ "epilogue".
Definition multipart_request : wire :=
  Wire "POST" "/token" [("Content-Type", "multipart/form-data; boundary=xYz")] "code=other&state=s" multipart_body.
Definition multipart_fields : kvs := [("grant_type", "authorization_code"); ("code", "a" ++ CRLF ++ "--b")].
Lemma list_ascii_app s t : list_ascii_of_string (s ++ t) = (list_ascii_of_string s ++ list_ascii_of_string t)%list.
Proof. induction s as [|a s IH]; [reflexivity|]. simpl. congruence. Qed.
Lemma last_byte v t a : v = (t ++ String a "")%string -> a = last (list_ascii_of_string v) " "%char.
Proof. intros ->. rewrite list_ascii_app. simpl. symmetry. apply last_last. Qed.
Lemma disposition_named h l d t rest k : header_lines h l -> kv_get "content-disposition" l = Some d ->
  kv_get "content-transfer-encoding" l = None -> d = (t ++ rest)%string ->
  token_text t -> to_lower t = "form-data" -> media_params rest [("name", k)] -> k <> "" -> names_field h k.
Proof.
  intros H1 H2 H3 H4 H5 H6 H7 H8. exists l, d, t, rest, [("name", k)]. split; [exact H1|]. split; [apply first_get; exact H2|].
  split; [intros v X; apply (proj1 (get_none _ _) H3 v); clear - X H3|].
  { exfalso. induction l as [|[a b] l IH]; [destruct X|]. cbn [kv_get] in H3. destruct (seqP "content-transfer-encoding" a) as [E|E]; [discriminate|].
    destruct X as [X|X]; [congruence|auto]. }
  split; [exact H4|]. split; [exact H5|]. split; [exact H6|]. split; [exact H7|].
  split; [intros x v v' [A|[]] [B|[]]; congruence|]. split; [left; reflexivity|]. split; [exact H8|].
  split; [intros f [X|[]]; discriminate X|]. intros f v [X|[]]. injection X as <- _. intros X. simpl in X. intuition discriminate.
Qed.
Example C82_multipart_example :
  sent_multipart multipart_request multipart_fields [("code", "other"); ("state", "s")] /\
  post_form_value (arrives multipart_request) "code" = "a" ++ CRLF ++ "--b" /\
  form_value (arrives multipart_request) "code" = "other" /\ form_value (arrives multipart_request) "grant_type" = "authorization_code".
Proof.
  split; [|vm_compute; auto].
  split; [apply form_text_iff; vm_compute; reflexivity|].
  exists "multipart/form-data; boundary=xYz", "multipart/form-data", [("boundary", "xYz")], "xYz".
  split; [reflexivity|]. split.
  { exists "", "multipart", "form-data", "; boundary=xYz". split; [reflexivity|]. split; [intros a []|]. split; [reflexivity|].
    split; [apply token_text_of; reflexivity|]. split; [apply token_text_of; reflexivity|].
    apply (mp_param "" " " "boundary" "xYz" "xYz" ""); [intros a []|intros a [<-|[]]; auto|apply token_text_of; reflexivity|constructor; apply token_text_of; reflexivity|].
    constructor. intros a []. }
  split; [reflexivity|]. split; [intros x v v' [A|[]] [B|[]]; congruence|].
  split; [intros f v [X|[]]; injection X as <- _; intros X; simpl in X; intuition discriminate|].
  split; [left; reflexivity|]. split; [discriminate|]. split; [intros a X; simpl in X; unfold bchar; simpl; intuition|].
  split; [|vm_compute; discriminate].
  apply (mt_preamble "xYz" "preamble"); [intros a X; simpl in X; intuition subst; discriminate|intros y; discriminate|].
  apply (mt_first "xYz" ""); [intros a []|].
  apply (fs_more "xYz" ("Content-Disposition: form-data; name=""grant_type""" ++ CRLF ++ CRLF) "grant_type" "authorization_code" " ").
  - apply (disposition_named _ [("content-disposition", "form-data; name=""grant_type""")] "form-data; name=""grant_type""" "form-data" "; name=""grant_type""" "grant_type"); try reflexivity.
    + apply (hl_line "Content-Disposition" " " "form-data; name=""grant_type""" CRLF []); [apply token_text_of; reflexivity|intros a [<-|[]]; auto| | |constructor].
      * intros a X; simpl in X; intuition subst; discriminate.
      * intros a [[t X]|[t X]] Y.
        -- injection X as <- _. simpl in Y. intuition discriminate.
        -- assert (Z : a = dquote).
           { apply last_byte in X. exact X. }
           subst a. simpl in Y. intuition discriminate.
    + apply token_text_of; reflexivity.
    + apply (mp_param "" " " "name" ("""grant_type""") "grant_type" ""); [intros a []|intros a [<-|[]]; auto|apply token_text_of; reflexivity| |constructor; intros a []].
      apply (pv_quoted "grant_type" "grant_type"). repeat (apply iq_byte; [discriminate|discriminate|discriminate|discriminate|]). constructor.
    + discriminate.
  - split; [intros p q X|intros q X; discriminate X]. apply (f_equal (fun s => has_byte "013" s)) in X. rewrite !has_byte_app in X. simpl in X.
    rewrite orb_true_r in X. discriminate X.
  - intros a [<-|[]]. auto.
  - apply (fs_last "xYz" ("content-type:text/plain" ++ CRLF ++ "content-disposition:FORM-DATA;Name=code" ++ CRLF ++ CRLF) "code" ("a" ++ CRLF ++ "--b") (CRLF ++ "epilogue")).
    + apply (disposition_named _ [("content-type", "text/plain"); ("content-disposition", "FORM-DATA;Name=code")] "FORM-DATA;Name=code" "FORM-DATA" ";Name=code" "code"); try reflexivity.
      * apply (hl_line "content-type" "" "text/plain" ("content-disposition:FORM-DATA;Name=code" ++ CRLF ++ CRLF) [("content-disposition", "FORM-DATA;Name=code")]);
          [apply token_text_of; reflexivity|intros a []| | |].
        -- intros a X; simpl in X; intuition subst; discriminate.
        -- intros a [[t X]|[t X]] Y; [injection X as <- _; simpl in Y; intuition discriminate|].
           assert (Z : a = "n"%char).
           { apply last_byte in X. exact X. }
           subst a. simpl in Y. intuition discriminate.
        -- apply (hl_line "content-disposition" "" "FORM-DATA;Name=code" CRLF []); [apply token_text_of; reflexivity|intros a []| | |constructor].
           ++ intros a X; simpl in X; intuition subst; discriminate.
           ++ intros a [[t X]|[t X]] Y; [injection X as <- _; simpl in Y; intuition discriminate|].
              assert (Z : a = "e"%char).
              { apply last_byte in X. exact X. }
              subst a. simpl in Y. intuition discriminate.
      * apply token_text_of; reflexivity.
      * apply (mp_param "" "" "Name" "code" "code" ""); [intros a []|intros a []|apply token_text_of; reflexivity|constructor; apply token_text_of; reflexivity|constructor; intros a []].
      * discriminate.
    + split.
      * intros p q X. apply (f_equal (fun s => has_byte "x" s)) in X. rewrite !has_byte_app in X. simpl in X. rewrite orb_true_r in X. discriminate X.
      * intros q X. discriminate X.
    + right. exists "epilogue". reflexivity.
Qed.
