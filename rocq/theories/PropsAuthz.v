(** * Properties of the authorization endpoint.

    [exec (handle_request E pol r) tr res]: under policy [pol], HandleRequest on
    request [r] performs the operations of [tr] (each with the answer it got) and
    ends with [res].  The answers of the data layer, the callbacks and the clock
    are arbitrary.  [E] holds the JWT library and says which URLs parse.  The
    vocabulary is in Spec.v, TokenSpec.v and AuthzSpec.v. *)
From Coq Require Import Lia.
From Verif Require Import StrFacts GoStr Codec Sha Utils Core IdToken Assertion AuthzResponse AuthzEndpoint Spec TokenSpec
  AuthzSpec UtilsFacts Hoare ShaFacts AuthzFacts AuthzDecide AuthzValidate AuthzProofs AuthzMore Demo.

(** ** Concrete requests *)
Definition demoE : env := Env demoJ (fun _ => true).
Definition authz_request (extra : kvs) : request :=
  Request "GET" "/authorize" []
    (([("client_id", "client1"); ("redirect_uri", "https://rp.example/cb"); ("state", "s1")] ++ extra)%list) [].
Definition with_client (c : client) (w : answers) : answers :=
  Answers (fun _ => (Some c, None)) (w_session w) (w_active w) (w_info w) (w_access w) (w_refresh w) (w_token w)
    (w_user w) (w_disable w) (w_record w) (w_now w) (w_login w) (w_from_login w) (w_auth_time w)
    (w_login_user w) (w_code w) (w_subject w) (w_continue w).
Definition with_scope (s : string) (w : answers) : answers :=
  Answers (w_client w) (w_session w) (w_active w)
    (fun _ _ => (Some (AuthInfo 7 "client1" 42 "subject-7" s 1000 true), None))
    (w_access w) (w_refresh w) (w_token w)
    (w_user w) (w_disable w) (w_record w) (w_now w) (w_login w) (w_from_login w) (w_auth_time w)
    (w_login_user w) (w_code w) (w_subject w) (w_continue w).
Definition with_login (l : cres bool) (w : answers) : answers :=
  Answers (w_client w) (w_session w) (w_active w) (w_info w)
    (w_access w) (w_refresh w) (w_token w)
    (w_user w) (w_disable w) (w_record w) (w_now w) l l (w_auth_time w)
    (w_login_user w) (w_code w) (w_subject w) (w_continue w).
Definition storing (q : option arequest) (w : answers) : answers :=
  Answers (w_client w) (w_session w) (w_active w) (w_info w)
    (w_access w) (w_refresh w) (w_token w)
    (w_user w) (w_disable w) (w_record w) (w_now w) (w_login w) (w_from_login w) (w_auth_time w)
    (w_login_user w) (w_code w) (w_subject w) (Some q).
(** User 42 is logged in and has consented to "openid email". *)
Definition answers2 : answers := with_scope "openid email" (answers1 "").
Definition handle (r : request) : prog bool := handle_request demoE default_policy r.
Definition hybrid_request : request :=
  authz_request [("response_type", "code id_token token"); ("scope", "email openid"); ("nonce", "n1");
                 ("code_verifier", "v1"); ("max_age", "100")].

(** ** C30 The endpoint never redirects to an unregistered URI. *)

Theorem C30_redirects_only_to_the_approved_uri : forall E pol r tr res,
  exec (handle_request E pol r) tr res -> http_ops tr <> [] ->
  exists c mode params,
    approved r c tr /\ answered mode (form_value r "redirect_uri") params tr.
Proof.
  intros E pol r tr res H HN. destruct (handle_answer _ _ _ _ _ H HN) as (c & m & p & H1 & H2 & _). eauto.
Qed.
Print Assumptions C30_redirects_only_to_the_approved_uri.

(* The client is found and approves before anything is written. *)
Theorem C30_approval_comes_first : forall E pol r tr res t1 o,
  exec (handle_request E pol r) tr res -> performs tr t1 o -> is_http o = true ->
  exists c, approved r c t1.
Proof.
  intros E pol r tr res t1 o H (a & t2 & Ht) HO.
  assert (HN : http_ops tr <> []).
  { subst tr. rewrite http_ops_app. unfold http_ops at 2, ops. simpl. rewrite HO.
    destruct (http_ops t1); discriminate. }
  destruct (handle_answer _ _ _ _ _ H HN) as (c & m & p & (H1 & H2 & H3 & e & rest & HT & H4) & _).
  exists c. split; [auto|]. split; [auto|]. split; [auto|]. destruct t1 as [|e1 t1].
  - exfalso. rewrite HT in Ht. apply (f_equal (fun l => hd None (map found_client l))) in Ht.
    simpl in Ht. destruct o; simpl in HO, Ht; discriminate.
  - rewrite HT in Ht. injection Ht as He _. subst e1. exists e, t1. auto.
Qed.
Print Assumptions C30_approval_comes_first.

Theorem C30_otherwise_only_an_error_screen : forall E pol r tr b,
  exec (handle_request E pol r) tr (Done b) -> (forall c, ~ approved r c tr) -> error_screen_only r tr.
Proof.
  intros E pol r tr b H HN. apply handle_handled in H. destruct H; auto; exfalso; eapply HN; eauto.
Qed.
Print Assumptions C30_otherwise_only_an_error_screen.

Theorem C30_no_error_screen_after_approval : forall E pol r tr res t1 n,
  exec (handle_request E pol r) tr res -> performs tr t1 (OErrorScreen n) -> forall c, ~ approved r c t1.
Proof. intros E pol r tr res t1 n H HP. exact (handle_performs _ _ _ _ _ _ _ H HP). Qed.
Print Assumptions C30_no_error_screen_after_approval.

(* Every run that ends is one of: an error screen, a question to the user, an error
   answer, a completed request. *)
Theorem C30_whole_runs : forall E pol r tr b,
  exec (handle_request E pol r) tr (Done b) -> handled E pol r tr.
Proof. exact handle_handled. Qed.
Print Assumptions C30_whole_runs.

Example C30_example :
  exec (handle hybrid_request) (trace_of answers2 (handle hybrid_request)) (Done true) /\
  http_ops (trace_of answers2 (handle hybrid_request)) <> [] /\
  approved hybrid_request client1 (trace_of answers2 (handle hybrid_request)).
Proof.
  split; [apply demo_run; vm_compute; reflexivity|]. split; [vm_compute; discriminate|].
  repeat split; try (vm_compute; congruence). do 2 eexists. split; [vm_compute; reflexivity|exact I].
Qed.
Example C30_example_unapproved :
  let r := Request "GET" "/authorize" [] [("client_id", "client1"); ("redirect_uri", "https://evil.example")] [] in
  ops (trace_of answers2 (handle r)) =
    [OFindClient "client1";
     OLog LInfo RedirectURIMismatch [("method", "CanUseRedirectURI"); ("client_id", "client1");
                                     ("redirect_uri", "https://evil.example")];
     OErrorScreen 2].
Proof. vm_compute. reflexivity. Qed.

(** ** C31 State is echoed unchanged; every answer is a success or an error. *)

Theorem C31_state_is_echoed : forall E pol r tr res,
  exec (handle_request E pol r) tr res -> http_ops tr <> [] ->
  exists mode params,
    answered mode (form_value r "redirect_uri") params tr /\ NoDup (map fst params) /\
    (forall v, In ("state", v) params <-> v = form_value r "state" /\ v <> "") /\
    (((exists typ, In ("error", typ) params /\ In typ error_types) /\
      (forall k, In k (map fst params) -> In k ["error"; "error_description"; "state"]))
     \/ (~ In "error" (map fst params) /\
         exists f, asks_for r f /\
         ((exists v, In ("code", v) params) <-> f_type f <> FImplicit) /\
         ((exists v, In ("access_token", v) params) <-> f_type f <> FAuthorizationCode /\ f_access f = true) /\
         ((exists v, In ("id_token", v) params) <-> f_type f <> FAuthorizationCode /\ f_id f = true))).
Proof.
  intros E pol r tr res H HN.
  destruct (handle_answer _ _ _ _ _ H HN) as (c & m & p & _ & H2 & _ & H4 & H5 & H6). exists m, p.
  split; [auto|]. split; [auto|]. split; [auto|]. destruct H6 as [H6|(H6 & q & f & _ & _ & H7)]; [auto|].
  right. split; [auto|]. exists f. auto.
Qed.
Print Assumptions C31_state_is_echoed.

Example C31_example :
  http_ops (trace_of answers2 (handle hybrid_request)) =
    [ORedirect ("https://rp.example/cb#access_token=access1&code=code1&expires_in=3600&id_token=signed.id.token&scope=email+openid&state=s1&token_type=bearer")].
Proof. vm_compute. reflexivity. Qed.
Example C31_example_error :
  let r := authz_request [("response_type", "code"); ("scope", "forbidden")] in
  http_ops (trace_of answers2 (handle r)) = [ORedirect "https://rp.example/cb?error=invalid_scope&state=s1"].
Proof. vm_compute. reflexivity. Qed.

(** ** C32 Requests shown to the user are fully validated. *)

Theorem C32_screens_show_validated_requests : forall E pol r tr res t1 o q,
  exec (handle_request E pol r) tr res -> performs tr t1 o ->
  o = OLoginScreen q \/ (exists c, o = OConsentScreen c q) ->
  exists c, approved r c t1 /\ validated pol r c q /\ (forall c', o = OConsentScreen c' q -> c' = c).
Proof.
  intros E pol r tr res t1 o q H HP [->|[c ->]]; pose proof (handle_performs _ _ _ _ _ _ _ H HP) as HG;
    simpl in HG.
  - destruct HG as (c & H1 & H2 & _). exists c. split; [auto|]. split; [auto|]. intros c' HC. discriminate.
  - destruct HG as (H1 & H2 & _). exists c. split; [auto|]. split; [auto|].
    intros c' HC. injection HC as ->. reflexivity.
Qed.
Print Assumptions C32_screens_show_validated_requests.

(* The same for everything that is issued without asking the user. *)
Theorem C32_issued_for_validated_requests : forall E pol r tr res t1 o,
  exec (handle_request E pol r) tr res -> performs tr t1 o -> issues o = true ->
  exists c q info, approved r c t1 /\ validated pol r c q /\ issues_for pol q o info t1.
Proof.
  intros E pol r tr res t1 o H HP HI. destruct (handle_issue _ _ _ _ _ _ _ H HP HI) as (c & q & info & H1 & H2 & _ & H3).
  eauto 6.
Qed.
Print Assumptions C32_issued_for_validated_requests.

Definition consent_request : request :=
  authz_request [("response_type", "code"); ("scope", "openid email offline_access"); ("prompt", "consent")].
Example C32_example :
  existsb (fun o => match o with
     | OConsentScreen c q => (rq_scope q =s? "openid email offline_access") && (rq_display q =s? "page")
     | _ => false end)%bool (ops (trace_of answers2 (handle consent_request))) = true.
Proof. vm_compute. reflexivity. Qed.

(** ** C33 Consent is skipped only when a recent identical consent exists. *)

Theorem C33_issued_only_for_recorded_consent : forall E pol r tr res t1 o,
  exec (handle_request E pol r) tr res -> performs tr t1 o -> issues o = true ->
  exists c q info,
    approved r c t1 /\ validated pol r c q /\ issues_for pol q o info t1 /\
    consent_on_record pol q info t1 /\ ~ has_word (form_value r "prompt") "consent" /\
    (form_value r "prompt" <> "none" -> c_no_consent c = OmitConsentIfCan).
Proof.
  intros E pol r tr res t1 o H HP HI.
  destruct (handle_issue _ _ _ _ _ _ _ H HP HI) as (c & q & info & H1 & H2 & (H3 & H4 & H5 & _) & H6).
  exists c, q, info. destruct (v_prompt _ _ _ _ H2) as [HPR _]. rewrite HPR in *.
  repeat (split; [assumption|]). intros HN. apply H5. intros [HS _]. congruence.
Qed.
Print Assumptions C33_issued_only_for_recorded_consent.

(* HandleRequest never records a consent itself. *)
Theorem C33_consent_is_never_recorded : forall E pol r tr res uid cid scope,
  exec (handle_request E pol r) tr res -> ~ In (OCreateInfo uid cid scope) (ops tr).
Proof.
  intros E pol r tr res uid cid scope H HI. apply in_performs in HI. destruct HI as [t1 HP].
  exact (handle_performs _ _ _ _ _ _ _ H HP).
Qed.
Print Assumptions C33_consent_is_never_recorded.

Example C33_example :
  existsb (fun o => match o with OCreateSession (Some i) s => (ai_user i =? 42)%Z | _ => false end)
    (ops (trace_of answers2 (handle hybrid_request))) = true.
Proof. vm_compute. reflexivity. Qed.

(** ** C34 prompt=none never shows UI. *)

Definition shows_screen (o : op) : bool :=
  match o with OErrorScreen _ | OLoginScreen _ | OConsentScreen _ _ => true | _ => false end.

(* For the exact value none and a client with one of the four known policies. *)
Theorem C34_prompt_none_is_silent : forall E pol r tr res c o,
  exec (handle_request E pol r) tr res -> form_value r "prompt" = "none" ->
  approved r c tr -> c_none c <> NoneOther -> In o (ops tr) -> shows_screen o = false.
Proof.
  intros E pol r tr res c o H HPR HA HN HO. apply in_performs in HO. destruct HO as [t1 HP].
  pose proof (handle_performs _ _ _ _ _ _ _ H HP) as HG.
  assert (HS : forall c' q, approved r c' t1 -> validated pol r c' q -> ~ silent c' q -> False).
  { intros c' q H1 H2 H3. apply H3. split; [rewrite (proj1 (v_prompt _ _ _ _ H2)); exact HPR|].
    rewrite (approved_unique r c' c tr); auto. eapply performs_approved; eauto. }
  destruct o; try reflexivity; exfalso; simpl in HG.
  - destruct tr as [|e tr]; [destruct HA as (_ & _ & _ & e & rest & HA & _); discriminate|].
    apply (HG c). destruct HP as (a & t2 & HT). destruct t1 as [|e1 t1].
    + exfalso. destruct HA as (_ & _ & _ & e' & rest & HA & _). rewrite HT in HA.
      apply (f_equal (fun l => hd None (map found_client l))) in HA. discriminate.
    + destruct HA as (H1 & H2 & H3 & e' & rest & HA & H4). rewrite HT in HA. injection HA as -> _.
      split; [auto|]. split; [auto|]. split; [auto|]. exists e', t1. auto.
  - destruct HG as (c' & H1 & H2 & H3). eapply HS; eauto.
  - destruct HG as (H1 & H2 & H3 & _). eapply HS; eauto.
Qed.
Print Assumptions C34_prompt_none_is_silent.

Definition none_request (prompt : string) : request :=
  authz_request [("response_type", "code"); ("scope", "openid email"); ("prompt", prompt)].
Definition logged_out : answers := with_login (Some false) answers2.

(* The value "none none" passes validation, but the login screen is shown. *)
Theorem C34_repeated_none_refuted :
  exists E pol r tr b c q,
    exec (handle_request E pol r) tr (Done b) /\ approved r c tr /\
    has_word (form_value r "prompt") "none" /\ prompt_ok (form_value r "prompt") /\
    c_none c = NoneAllowWithLoginSession /\ In (OLoginScreen q) (ops tr).
Proof.
  exists demoE, default_policy, (none_request "none none"),
    (trace_of logged_out (handle (none_request "none none"))), false, client1.
  eexists. split; [apply demo_run; vm_compute; reflexivity|].
  split; [repeat split; try (vm_compute; congruence); do 2 eexists; split; [vm_compute; reflexivity|exact I]|].
  split; [apply has_word_include; vm_compute; reflexivity|].
  split; [apply prompt_ok_spec; right; vm_compute; reflexivity|].
  split; [reflexivity|].
  match goal with |- In (OLoginScreen ?q) ?l =>
    let l' := eval vm_compute in l in
    match l' with context [OLoginScreen ?q'] => unify q q' end
  end.
  vm_compute. repeat (left; reflexivity) || right.
Qed.
Print Assumptions C34_repeated_none_refuted.

(* A client whose policy value is not one of the four is shown the login screen. *)
Definition odd_client : client :=
  Client "client1" 42 "RS256" "key1" (Some (KRsaPriv 1)) (fun s => s =s? "secret1") (fun _ => true)
    (fun _ => true) (fun _ s => true) (fun u => true) (fun _ _ => Some (KRsaPub 1)) OmitConsentIfCan NoneOther.
Theorem C34_unknown_policy_refuted :
  exists E pol r tr b c,
    exec (handle_request E pol r) tr (Done b) /\ approved r c tr /\
    form_value r "prompt" = "none" /\ existsb shows_screen (ops tr) = true.
Proof.
  exists demoE, default_policy, (none_request "none"),
    (trace_of (with_client odd_client (with_scope "other" answers2)) (handle (none_request "none"))), true, odd_client.
  split; [apply demo_run; vm_compute; reflexivity|].
  split; [repeat split; try (vm_compute; congruence); do 2 eexists; split; [vm_compute; reflexivity|exact I]|].
  split; vm_compute; reflexivity.
Qed.
Print Assumptions C34_unknown_policy_refuted.

Example C34_example :
  http_ops (trace_of logged_out (handle (none_request "none"))) =
    [ORedirect "https://rp.example/cb?error=login_required&state=s1"] /\
  http_ops (trace_of answers2 (handle (none_request "none"))) =
    [ORedirect "https://rp.example/cb?code=code1&state=s1"].
Proof. split; vm_compute; reflexivity. Qed.

(** ** C35 Login is required before anything is granted. *)

(* Except for clients whose none-prompt policy is the id_token_hint one (or an
   unknown one), and then only for prompt=none. *)
Theorem C35_login_first : forall E pol r tr res t1 o c,
  exec (handle_request E pol r) tr res -> performs tr t1 o -> issues o = true \/ asks_consent o ->
  approved r c t1 ->
  form_value r "prompt" <> "none" \/ In (c_none c) [NoneAllowWithLoginSession; NoneAllowIfLoginHintMatched] ->
  login_confirmed t1.
Proof.
  intros E pol r tr res t1 o c H HP HO HA HC. destruct HO as [HO|(c' & q & ->)].
  - destruct (handle_issue _ _ _ _ _ _ _ H HP HO) as (c' & q & info & H1 & H2 & (_ & _ & _ & H3 & H4 & _) & _).
    rewrite (approved_unique _ _ _ _ HA H1) in HC. pose proof (proj1 (v_prompt _ _ _ _ H2)) as HPR.
    destruct HC as [HC|HC]; [apply H4; congruence|].
    destruct (string_dec (rq_prompt q) "none") as [HE|HE]; [|auto]. specialize (H3 HE). unfold none_policy in H3.
    destruct HC as [HC|[HC|[]]]; rewrite <- HC in H3; tauto.
  - destruct (handle_consent _ _ _ _ _ _ _ _ H HP) as (H1 & H2 & (H3 & H4 & _)).
    rewrite (approved_unique _ _ _ _ HA H1) in HC. pose proof (proj1 (v_prompt _ _ _ _ H2)) as HPR.
    destruct HC as [HC|HC]; [apply H4; congruence|].
    destruct (string_dec (rq_prompt q) "none") as [HE|HE]; [|auto]. exfalso. apply H3. split; [auto|].
    destruct HC as [HC|[HC|[]]]; rewrite <- HC; discriminate.
Qed.
Print Assumptions C35_login_first.

Definition hint_client : client :=
  Client "client1" 42 "RS256" "key1" (Some (KRsaPriv 1)) (fun s => s =s? "secret1") (fun _ => true)
    (fun _ => true) (fun _ s => true) (fun u => true) (fun _ _ => Some (KRsaPub 1)) OmitConsentIfCan
    NoneAllowIfIdTokenHintMatched.
Definition hint_request : request :=
  authz_request [("response_type", "code"); ("scope", "openid email"); ("prompt", "none");
                 ("id_token_hint", "h.c.s"); ("max_age", "60")].
Definition logged_out_hint : answers := with_client hint_client logged_out.

(* With the id_token_hint policy a code is issued without asking for a login. *)
Theorem C35_id_token_hint_refuted :
  exists E pol r tr,
    exec (handle_request E pol r) tr (Done true) /\
    existsb issues (ops tr) = true /\ ~ In OConfirmLogin (ops tr) /\ ~ In OFromLogin (ops tr).
Proof.
  exists demoE, default_policy, hint_request, (trace_of logged_out_hint (handle hint_request)).
  split; [apply demo_run; vm_compute; reflexivity|]. split; [vm_compute; reflexivity|].
  split; vm_compute; intuition discriminate.
Qed.
Print Assumptions C35_id_token_hint_refuted.

Example C35_example :
  let tr := trace_of answers2 (handle hybrid_request) in
  existsb issues (ops tr) = true /\
  In OConfirmLogin (ops tr) /\ form_value hybrid_request "prompt" <> "none".
Proof.
  split; [vm_compute; reflexivity|]. split; [vm_compute; repeat (left; reflexivity) || right|discriminate].
Qed.

(** ** C36 prompt=login forces re-authentication. *)

Theorem C36_prompt_login : forall E pol r tr res t1 o,
  exec (handle_request E pol r) tr res -> performs tr t1 o -> issues o = true \/ asks_consent o ->
  has_word (form_value r "prompt") "login" -> In (Ev OFromLogin (Some true)) t1.
Proof.
  intros E pol r tr res t1 o H HP HO HW. destruct HO as [HO|(c' & q & ->)].
  - destruct (handle_issue _ _ _ _ _ _ _ H HP HO) as (c & q & info & H1 & H2 & (_ & _ & _ & _ & _ & H3 & _) & _).
    apply H3. rewrite (proj1 (v_prompt _ _ _ _ H2)). exact HW.
  - destruct (handle_consent _ _ _ _ _ _ _ _ H HP) as (H1 & H2 & (_ & _ & H3 & _)).
    apply H3. rewrite (proj1 (v_prompt _ _ _ _ H2)). exact HW.
Qed.
Print Assumptions C36_prompt_login.

Example C36_example :
  let tr w := ops (trace_of w (handle (none_request "login"))) in
  existsb issues (tr answers2) = true /\ existsb issues (tr logged_out) = false /\
  existsb shows_screen (tr logged_out) = true.
Proof. vm_compute. auto. Qed.

(** ** C37 max_age is enforced. *)

(* The age is the difference of two int64 values. *)
Theorem C37_max_age : forall E pol r tr res t1 o ma,
  exec (handle_request E pol r) tr res -> performs tr t1 o -> issues o = true \/ asks_consent o ->
  form_value r "prompt" <> "none" ->
  atoi (form_value r "max_age") = Some ma -> (0 < ma)%Z ->
  exists at_ now, segment [Ev OAuthTime (Some at_); Ev ONow now] t1 /\ (sub64 now at_ <= ma)%Z.
Proof.
  intros E pol r tr res t1 o ma H HP HO HN HM H0.
  assert (HV : forall c q, validated pol r c q -> rq_max_age q = ma /\ rq_prompt q <> "none").
  { intros c q HV. split; [|rewrite (proj1 (v_prompt _ _ _ _ HV)); exact HN].
    destruct (v_max_age _ _ _ _ HV) as [[K1 _]|[K1 _]]; [rewrite K1 in HM; discriminate|congruence]. }
  destruct HO as [HO|(c' & q & ->)].
  - destruct (handle_issue _ _ _ _ _ _ _ H HP HO) as (c & q & info & H1 & H2 & (_ & _ & _ & _ & _ & _ & H3) & _).
    destruct (HV _ _ H2) as [<- HQ]. apply H3; [|exact H0]. intros [HS _]. auto.
  - destruct (handle_consent _ _ _ _ _ _ _ _ H HP) as (H1 & H2 & (_ & _ & _ & H3)).
    destruct (HV _ _ H2) as [<- HQ]. apply H3. exact H0.
Qed.
Print Assumptions C37_max_age.

(* With prompt=none the clock is compared with the consent only: here the login is
   100 seconds old and max_age is 60. *)
Definition old_login (w : answers) : answers :=
  Answers (w_client w) (w_session w) (w_active w) (w_info w) (w_access w) (w_refresh w) (w_token w)
    (w_user w) (w_disable w) (w_record w) (w_now w) (w_login w) (w_from_login w) (Some 910%Z)
    (w_login_user w) (w_code w) (w_subject w) (w_continue w).
Theorem C37_prompt_none_refuted :
  exists E pol r tr,
    exec (handle_request E pol r) tr (Done true) /\ existsb issues (ops tr) = true /\
    atoi (form_value r "max_age") = Some 60%Z /\
    (forall at_, In (Ev OAuthTime (Some at_)) tr -> at_ = 910%Z) /\
    (forall now, In (Ev ONow now) tr -> now = 1010%Z).
Proof.
  pose (r := authz_request [("response_type", "code"); ("scope", "openid email"); ("prompt", "none"); ("max_age", "60")]).
  exists demoE, default_policy, r, (trace_of (old_login answers2) (handle r)).
  split; [apply demo_run; vm_compute; reflexivity|]. split; [vm_compute; reflexivity|].
  split; [vm_compute; reflexivity|].
  pose (P := fun e => match e with
     | Ev o a => (match o as o0 return ans o0 -> Prop with
                  | OAuthTime => fun x => x = Some 910%Z | ONow => fun x => x = 1010%Z | _ => fun _ => True end) a
     end).
  assert (HF : Forall P (trace_of (old_login answers2) (handle r))) by (vm_compute; repeat constructor).
  rewrite Forall_forall in HF.
  assert (HA : forall e, In e (trace_of (old_login answers2) (handle r)) -> P e) by exact HF.
  split.
  - intros at_ H. specialize (HA _ H). simpl in HA. congruence.
  - intros now H. exact (HA _ H).
Qed.
Print Assumptions C37_prompt_none_refuted.

Example C37_example :
  let r := authz_request [("response_type", "code"); ("scope", "openid email"); ("max_age", "60")] in
  existsb issues (ops (trace_of answers2 (handle r))) = true /\
  existsb issues (ops (trace_of (old_login answers2) (handle r))) = false /\
  existsb shows_screen (ops (trace_of (old_login answers2) (handle r))) = true.
Proof. vm_compute. auto. Qed.

(** ** C38 offline_access requires explicit consent and a code. *)

Lemma offline_allowed pol r c q : validated pol r c q -> has_word (rq_scope q) "offline_access" ->
  exists f, asks_for r f /\ rq_flow q = Some f /\ f_type f <> FImplicit /\ has_word (form_value r "prompt") "consent".
Proof.
  intros HV HW. destruct (v_flow _ _ _ _ HV) as (f & l & H1 & H2 & H3 & _ & _ & H4 & _).
  exists f. split; [exists l; auto|]. split; [auto|]. rewrite <- (proj1 (v_prompt _ _ _ _ HV)).
  destruct H4 as [(K1 & K2 & ll & K3 & K4 & K5)|([K1|[K1 K2]] & K3)].
  - exfalso. destruct HW as (l' & L1 & L2).
    destruct (filter (fun w => negb (String.eqb w "offline_access")) ll) as [|x y] eqn:EF.
    + specialize (K4 eq_refl). rewrite K4 in L1. destruct (words_exist_unique "") as (lu & U1 & U2).
      assert (l' = [""]) as ->.
      { rewrite (U2 l' L1). symmetry. apply U2. split; [discriminate|]. split; [|reflexivity].
        constructor; [simpl; tauto|constructor]. }
      destruct L2 as [L2|[]]. discriminate.
    + cbv zeta in K5. assert (HA : x :: y <> []) by discriminate. specialize (K5 HA).
      destruct (words_exist_unique (rq_scope q)) as (lu & U1 & U2).
      assert (l' = x :: y) as -> by (rewrite (U2 l' L1); symmetry; apply U2; auto).
      rewrite <- EF in L2. apply filter_In in L2. destruct L2 as [_ L2]. discriminate.
  - exfalso. apply K1. rewrite K3 in HW. exact HW.
  - split; auto.
Qed.

Theorem C38_screens : forall E pol r tr res t1 o q,
  exec (handle_request E pol r) tr res -> performs tr t1 o ->
  o = OLoginScreen q \/ (exists c, o = OConsentScreen c q) ->
  has_word (rq_scope q) "offline_access" ->
  exists f, asks_for r f /\ rq_flow q = Some f /\ f_type f <> FImplicit /\ has_word (form_value r "prompt") "consent".
Proof.
  intros E pol r tr res t1 o q H HP HO HW.
  destruct (C32_screens_show_validated_requests _ _ _ _ _ _ _ _ H HP HO) as (c & _ & HV & _).
  eapply offline_allowed; eauto.
Qed.
Print Assumptions C38_screens.

(* Nothing is issued with offline_access without asking: neither the request nor
   the recorded consent it is completed with contains it. *)
Theorem C38_never_issued_silently : forall E pol r tr res t1 o,
  exec (handle_request E pol r) tr res -> performs tr t1 o -> issues o = true ->
  exists c q info, approved r c t1 /\ validated pol r c q /\ issues_for pol q o info t1 /\
    ~ has_word (rq_scope q) "offline_access" /\ ~ has_word (ai_scope info) "offline_access".
Proof.
  intros E pol r tr res t1 o H HP HI.
  destruct (C33_issued_only_for_recorded_consent _ _ _ _ _ _ _ H HP HI)
    as (c & q & info & H1 & H2 & H3 & (uid & now & _ & _ & (la & lb & W1 & W2 & W3) & _) & H5 & _).
  exists c, q, info. split; [auto|]. split; [auto|]. split; [auto|].
  assert (HQ : ~ has_word (rq_scope q) "offline_access").
  { intros HW. destruct (offline_allowed _ _ _ _ H2 HW) as (f & _ & _ & _ & HC). contradiction. }
  split; [exact HQ|]. intros (l & L1 & L2). apply HQ. exists lb. split; [exact W2|].
  destruct (words_exist_unique (ai_scope info)) as (lu & U1 & U2).
  rewrite (U2 _ L1) in L2. rewrite <- (U2 _ W1) in L2. eapply Permutation_in; eauto.
Qed.
Print Assumptions C38_never_issued_silently.

(* Whatever else the scope contains is kept. *)
Theorem C38_other_words_are_kept : forall E pol r tr res t1 o q w,
  exec (handle_request E pol r) tr res -> performs tr t1 o ->
  o = OLoginScreen q \/ (exists c, o = OConsentScreen c q) ->
  w <> "offline_access" -> w <> "" -> has_word (rq_scope q) w <-> has_word (form_value r "scope") w.
Proof.
  intros E pol r tr res t1 o q w H HP HO HW HE.
  destruct (C32_screens_show_validated_requests _ _ _ _ _ _ _ _ H HP HO) as (c & _ & HV & _).
  destruct (v_flow _ _ _ _ HV) as (f & l & _ & _ & _ & _ & _ & H4 & _).
  destruct H4 as [(_ & _ & ll & K3 & K4 & K5)|(_ & ->)]; [|tauto].
  assert (HL : has_word (form_value r "scope") w <-> In w ll).
  { destruct (words_exist_unique (form_value r "scope")) as (lu & U1 & U2). split.
    - intros (l' & L1 & L2). rewrite (U2 _ L1) in L2. rewrite (U2 _ K3). exact L2.
    - intros HI. exists ll. auto. }
  rewrite HL. set (keep := filter (fun w => negb (String.eqb w "offline_access")) ll) in *.
  assert (HK : In w keep <-> In w ll).
  { unfold keep. rewrite filter_In. split; [tauto|]. intros HI. split; [auto|].
    destruct (String.eqb w "offline_access") eqn:EW; [|reflexivity]. apply String.eqb_eq in EW. contradiction. }
  rewrite <- HK. destruct keep as [|x y] eqn:EK.
  - rewrite (K4 eq_refl). split; [|intros []]. intros (l' & L1 & L2).
    destruct (words_exist_unique "") as (lu & U1 & U2).
    assert (l' = [""]) as ->.
    { rewrite (U2 l' L1). symmetry. apply U2. split; [discriminate|]. split; [|reflexivity].
      constructor; [simpl; tauto|constructor]. }
    destruct L2 as [L2|[]]. congruence.
  - specialize (K5 ltac:(discriminate)). split.
    + intros (l' & L1 & L2). destruct (words_exist_unique (rq_scope q)) as (lu & U1 & U2).
      rewrite (U2 _ L1) in L2. rewrite (U2 _ K5). exact L2.
    + intros HI. exists (x :: y). auto.
Qed.
Print Assumptions C38_other_words_are_kept.

Example C38_example :
  let shown r s := existsb (fun o => match o with OConsentScreen c q => rq_scope q =s? s | _ => false end)
                     (ops (trace_of answers2 (handle r))) in
  shown consent_request "openid email offline_access" = true /\
  shown (authz_request [("response_type", "token"); ("scope", "offline_access email"); ("prompt", "consent")])
    "email" = true.
Proof. vm_compute. auto. Qed.

(** ** C39 Response modes are never weakened below the flow's default. *)

Theorem C39_answers : forall E pol r tr res f,
  exec (handle_request E pol r) tr res -> http_ops tr <> [] -> asks_for r f ->
  exists mode params, answered mode (form_value r "redirect_uri") params tr /\
    (mode = flow_default pol f \/ (mode = form_value r "response_mode" /\ mode_rank mode <> None)) /\
    (p_level_check pol = true -> mode_rank (flow_default pol f) <> None -> at_least mode (flow_default pol f)) /\
    (mode_usable pol r f -> mode = form_value r "response_mode").
Proof.
  intros E pol r tr res f H HN HF.
  destruct (handle_answer _ _ _ _ _ H HN) as (c & m & p & _ & H2 & H3 & _). exists m, p.
  split; [auto|]. exact (H3 f HF).
Qed.
Print Assumptions C39_answers.

Theorem C39_screens : forall E pol r tr res t1 o q,
  exec (handle_request E pol r) tr res -> performs tr t1 o ->
  o = OLoginScreen q \/ (exists c, o = OConsentScreen c q) ->
  exists f, asks_for r f /\ rq_flow q = Some f /\
    (p_level_check pol = true -> mode_rank (flow_default pol f) <> None ->
     at_least (rq_mode q) (flow_default pol f)) /\
    (rq_mode q = flow_default pol f \/ rq_mode q = form_value r "response_mode") /\
    (mode_usable pol r f -> rq_mode q = form_value r "response_mode").
Proof.
  intros E pol r tr res t1 o q H HP HO.
  destruct (C32_screens_show_validated_requests _ _ _ _ _ _ _ _ H HP HO) as (c & _ & HV & _).
  destruct (v_flow _ _ _ _ HV) as (f & l & K1 & K2 & K3 & _). exists f. split; [exists l; auto|].
  split; [auto|]. destruct (v_mode _ _ _ _ HV f K1) as (M1 & M2 & M3). tauto.
Qed.
Print Assumptions C39_screens.

Example C39_example :
  let r := authz_request [("response_type", "id_token"); ("scope", "openid email"); ("nonce", "n");
                          ("response_mode", "query")] in
  http_ops (trace_of answers2 (handle r)) =
    [ORedirect "https://rp.example/cb#id_token=signed.id.token&scope=openid+email&state=s1"].
Proof. vm_compute. reflexivity. Qed.
(* A stronger mode than the default can be used. *)
Example C39_example_usable :
  let r := authz_request [("response_type", "code"); ("scope", "openid email"); ("response_mode", "form_post")] in
  let f := Flow FAuthorizationCode false false in
  asks_for r f /\ mode_usable default_policy r f /\ flow_default default_policy f <> form_value r "response_mode".
Proof.
  cbv zeta. split; [apply judge_asks; vm_compute; reflexivity|]. split; [|vm_compute; discriminate].
  split; [vm_compute; discriminate|]. intros _ _. exists 2%nat, 0%nat. split; [reflexivity|]. split; [reflexivity|lia].
Qed.

(** ** C41 What is stored is what was requested and what is returned. *)

Definition stored_request (f : flow_type) (access id : bool) : arequest :=
  ARequest (Some (Flow f access id)) "client1" "openid email" "https://rp.example/cb" "fragment" "s1" "v1" "n1"
    "page" "" 0 "ja" "" "".
Definition completing (q : arequest) : list event :=
  trace_of (storing (Some q) answers2) (complete_request demoE default_policy).

Theorem C41_completed_runs : forall E pol tr,
  exec (complete_request E pol) tr (Done true) ->
  exists req info, recorded req info tr /\ completed E pol info req (skipn 3 tr).
Proof.
  intros E pol tr H. destruct (wp_exec _ _ _ _ _ (complete_request_wp E pol) H) as (req & info & tc & H1 & <- & H2).
  eauto.
Qed.
Print Assumptions C41_completed_runs.

(* One session, with the returned code, before the answer; none in the implicit flow. *)
Theorem C41_session_stored : forall E pol tr,
  exec (complete_request E pol) tr (Done true) ->
  exists req info f, recorded req info tr /\ rq_flow req = Some f /\
  (f_type f = FImplicit -> sessions tr = []) /\
  (f_type f <> FImplicit -> exists code at_ params pre ta,
     In (Ev OCreateCode (Some code)) pre /\ In (Ev OAuthTime (Some at_)) pre /\
     sessions pre = [(info, ASession (rq_redirect req) code (p_session_expires pol) (rq_verifier req)
                              (rq_nonce req) at_)] /\
     tr = (pre ++ ta)%list /\ sessions ta = [] /\ http_ops pre = [] /\
     sent (rq_mode req) (rq_redirect req) params ta /\ In ("code", code) params).
Proof.
  intros E pol tr H. destruct (C41_completed_runs _ _ _ H) as (req & info & HR & HC).
  assert (exists f, rq_flow req = Some f) as [f HF] by (destruct HC; eauto).
  exists req, info, f. split; [auto|]. split; [auto|].
  destruct (completed_sessions _ _ _ _ _ f HC HF) as [H1 H2]. destruct HR as (uid & rest & ->). cbn [skipn] in *.
  split; [exact H1|]. intros HT. destruct (H2 HT) as (code & at_ & params & pre & ta & K1 & K2 & K3 & -> & K5 & K6 & K7 & K8).
  exists code, at_, params. eexists (_ :: _ :: _ :: pre), ta.
  split; [right; right; right; exact K1|]. split; [right; right; right; exact K2|].
  match goal with |- ?A /\ ?B /\ ?C => enough (HH : B /\ A /\ C) by tauto end.
  split; [reflexivity|]. split; [exact K3|]. auto.
Qed.
Print Assumptions C41_session_stored.

(* What the answer carries. *)
Theorem C41_answer : forall E pol tr,
  exec (complete_request E pol) tr (Done true) ->
  exists req info f params, recorded req info tr /\ rq_flow req = Some f /\
    answered (rq_mode req) (rq_redirect req) params tr /\ NoDup (map fst params) /\
    (forall v, In ("state", v) params <-> v = rq_state req /\ v <> "") /\
    ~ In "error" (map fst params) /\
    ((exists v, In ("code", v) params) <-> f_type f <> FImplicit) /\
    ((exists v, In ("access_token", v) params) <-> f_type f <> FAuthorizationCode /\ f_access f = true) /\
    ((exists v, In ("id_token", v) params) <-> f_type f <> FAuthorizationCode /\ f_id f = true).
Proof.
  intros E pol tr H. destruct (C41_completed_runs _ _ _ H) as (req & info & HR & HC).
  assert (exists f, rq_flow req = Some f) as [f HF] by (destruct HC; eauto).
  destruct (completed_answer _ _ _ _ _ f HC HF) as (params & H1 & H2).
  exists req, info, f, params. split; [auto|]. split; [auto|].
  destruct HR as (uid & rest & ->). cbn [skipn] in *.
  split; [apply (answered_app _ _ _ [_; _; _]); [reflexivity|exact H1]|exact H2].
Qed.
Print Assumptions C41_answer.

(* A request is left uncompleted only after some call failed. *)
Theorem C41_refused_only_after_a_failure : forall E pol tr,
  exec (complete_request E pol) tr (Done false) ->
  (forall req f, In (Ev OContinue (Some (Some req))) tr -> rq_flow req = Some f -> f_type f <> FDirectGrant) ->
  (forall cid c e, In (Ev (OFindClient cid) (Some c, e)) tr -> can_sign (e_jwt E) c) ->
  exists e, In e tr /\ failed e.
Proof. exact complete_request_refused. Qed.
Print Assumptions C41_refused_only_after_a_failure.

Example C41_example :
  http_ops (completing (stored_request FHybrid true true)) =
    [ORedirect "https://rp.example/cb#access_token=access1&code=code1&expires_in=3600&id_token=signed.id.token&scope=openid+email&state=s1&token_type=bearer"] /\
  map snd (sessions (completing (stored_request FHybrid true true))) =
    [ASession "https://rp.example/cb" "code1" 60 "v1" "n1" 990].
Proof. split; vm_compute; reflexivity. Qed.
Example C41_example_failure :
  let w := Answers (fun _ => (Some client1, None)) (fun _ => (None, None)) (fun _ => (None, None))
     (fun _ _ => (None, None)) (fun _ => (None, None)) (fun _ => (None, None)) (Some token1, None)
     (0, None)%Z None None 1010%Z (Some true) (Some true) (Some 990%Z) (Some 42%Z) None (Some true)
     (Some (Some (stored_request FAuthorizationCode false false))) in
  http_ops (trace_of w (complete_request demoE default_policy)) =
    [ORedirect "https://rp.example/cb#error=server_error&state=s1"].
Proof. vm_compute. reflexivity. Qed.

(** ** C42 Token answers from the authorization endpoint carry expires_in. *)

Theorem C42_hybrid : forall E pol tr,
  exec (complete_request E pol) tr (Done true) ->
  exists req info, recorded req info tr /\
  forall f, rq_flow req = Some f -> f_type f = FHybrid -> f_access f = true ->
  exists params t, answered (rq_mode req) (rq_redirect req) params tr /\ NoDup (map fst params) /\
    In (Ev (OCreateToken info false) (Some t, None)) tr /\
    In ("access_token", ot_access t) params /\ In ("token_type", "bearer") params /\
    In ("expires_in", itoa (ot_access_expires t)) params.
Proof.
  intros E pol tr H. destruct (C41_completed_runs _ _ _ H) as (req & info & HR & HC).
  exists req, info. split; [auto|]. intros f HF HT HA.
  destruct (completed_token _ _ _ _ _ f HC HF) as (params & t & H1 & H2 & H3 & H4 & H5 & H6 & _); [congruence|auto|].
  exists params, t. destruct HR as (uid & rest & ->). cbn [skipn] in *.
  split; [apply (answered_app _ _ _ [_; _; _]); [reflexivity|exact H1]|]. split; [auto|].
  split; [right; right; right; exact H3|]. auto.
Qed.
Print Assumptions C42_hybrid.

(* In the implicit flow no answer has the parameter; it is called rexpires_in. *)
Theorem C42_implicit_refuted : forall E pol tr,
  exec (complete_request E pol) tr (Done true) ->
  exists req info, recorded req info tr /\
  forall f, rq_flow req = Some f -> f_type f = FImplicit -> f_access f = true ->
  exists params t, answered (rq_mode req) (rq_redirect req) params tr /\
    In ("access_token", ot_access t) params /\ ~ In "expires_in" (map fst params) /\
    In ("rexpires_in", itoa (ot_access_expires t)) params.
Proof.
  intros E pol tr H. destruct (C41_completed_runs _ _ _ H) as (req & info & HR & HC).
  exists req, info. split; [auto|]. intros f HF HT HA.
  destruct (completed_token _ _ _ _ _ f HC HF) as (params & t & H1 & H2 & H3 & H4 & H5 & _ & H6); [congruence|auto|].
  exists params, t. destruct HR as (uid & rest & ->). cbn [skipn] in *.
  split; [apply (answered_app _ _ _ [_; _; _]); [reflexivity|exact H1]|]. split; [auto|]. auto.
Qed.
Print Assumptions C42_implicit_refuted.

Example C42_example :
  exec (complete_request demoE default_policy) (completing (stored_request FImplicit true false)) (Done true) /\
  http_ops (completing (stored_request FImplicit true false)) =
    [ORedirect "https://rp.example/cb#access_token=access1&rexpires_in=3600&scope=openid+email&state=s1&token_type=bearer"].
Proof. split; [apply demo_run; vm_compute; reflexivity|vm_compute; reflexivity]. Qed.

(** ** C43 Cancel and complete act on the stored request only. *)

Theorem C43_cancel : forall E tr b,
  exec (cancel_request E) tr (Done b) ->
  (b = true /\ exists req rest, tr = Ev OContinue (Some (Some req)) :: rest /\
     error_sent (rq_mode req) (rq_redirect req) (rq_state req) "access_denied" tr)
  \/ (b = false /\ In (Ev OContinue None) tr /\ http_ops tr = []).
Proof.
  intros E tr b H. pose proof (wp_exec _ _ _ _ _ (cancel_request_wp E) H) as HQ. cbv beta iota in HQ. destruct b.
  - left. split; [reflexivity|]. destruct HQ as (req & rest & H1 & H2 & _). eauto.
  - right. destruct HQ as (a & b & d & ->). split; [reflexivity|]. split; [left; reflexivity|reflexivity].
Qed.
Print Assumptions C43_cancel.

Theorem C43_cancel_touches_no_data : forall E tr res,
  exec (cancel_request E) tr res -> data_calls tr = [] /\ Forall (fun o => issues o = false) (ops tr).
Proof.
  intros E tr res H.
  assert (HG : forall e, In e tr -> ev_op e = OContinue \/ quiet [] (ev_op e)).
  { intros e He. apply in_split in He. destruct He as (t1 & t2 & He).
    exact (wp_guard _ _ _ _ _ t1 e t2 (cancel_request_wp E) H He). }
  split.
  - unfold data_calls. clear H. induction tr as [|[o a] tr IH]; [reflexivity|]. simpl.
    rewrite IH; [|intros e He; apply HG; right; exact He].
    destruct (HG (Ev o a) (or_introl eq_refl)) as [H|H]; simpl in H; [subst; reflexivity|].
    destruct o; try contradiction; reflexivity.
  - apply Forall_forall. intros o Ho. apply in_map_iff in Ho. destruct Ho as (e & <- & He).
    destruct (HG e He) as [H1|H1]; [rewrite H1; reflexivity|]. destruct (ev_op e); try contradiction; reflexivity.
Qed.
Print Assumptions C43_cancel_touches_no_data.

(* Consent is recorded for the logged-in user, the stored client and the stored
   scope before anything is issued, and everything is issued for that consent. *)
Theorem C43_consent_recorded_first : forall E pol tr res t1 o,
  exec (complete_request E pol) tr res -> performs tr t1 o -> issues o = true ->
  match o with
  | OCreateInfo uid cid scope => exists req,
      t1 = [Ev OContinue (Some (Some req)); Ev OLoginUser (Some uid)] /\
      cid = rq_client req /\ scope = rq_scope req
  | OCreateSession i s => exists req, recorded req i t1 /\ session_for pol req s t1
  | OCreateToken i on_token_endpoint => exists req, recorded req i t1 /\ on_token_endpoint = false
  | _ => exists req info, recorded req info t1
  end.
Proof.
  intros E pol tr res t1 o H (a & t2 & ->) HI.
  pose proof (wp_guard _ _ _ _ _ t1 (Ev o a) t2 (complete_request_wp E pol) H eq_refl) as HG. simpl in HG.
  destruct o; try discriminate HI; exact HG.
Qed.
Print Assumptions C43_consent_recorded_first.

(* An uncompleted request is answered with server_error, or Continue failed. *)
Theorem C43_uncompleted : forall E pol tr,
  exec (complete_request E pol) tr (Done false) ->
  (In (Ev OContinue None) tr /\ http_ops tr = []) \/
  exists req rest, tr = Ev OContinue (Some (Some req)) :: rest /\
    (error_sent (rq_mode req) (rq_redirect req) (rq_state req) "server_error" tr \/
     exists f, rq_flow req = Some f /\ f_type f = FDirectGrant /\ http_ops tr = []).
Proof.
  intros E pol tr H. destruct (wp_exec _ _ _ _ _ (complete_request_wp E pol) H) as [(a & b & d & ->)|HQ]; [|auto].
  left. split; [left; reflexivity|reflexivity].
Qed.
Print Assumptions C43_uncompleted.

Example C43_example :
  http_ops (trace_of (storing (Some (stored_request FHybrid true true)) answers2) (cancel_request demoE)) =
    [ORedirect "https://rp.example/cb#error=access_denied&state=s1"] /\
  In (OCreateInfo 42 "client1" "openid email") (ops (completing (stored_request FHybrid true true))).
Proof. split; [vm_compute; reflexivity|vm_compute; auto]. Qed.

(** ** C23 at_hash and c_hash follow OpenID Connect. *)

Theorem C23_hashes_when_completing : forall E pol tr,
  exec (complete_request E pol) tr (Done true) ->
  exists req info, recorded req info tr /\
  forall f, rq_flow req = Some f -> f_type f <> FAuthorizationCode -> f_id f = true -> hashes_sent E req f tr.
Proof.
  intros E pol tr H. destruct (C41_completed_runs _ _ _ H) as (req & info & HR & HC).
  exists req, info. split; [auto|]. intros f HF HT HI.
  destruct (completed_hashes _ _ _ _ _ f HC HF HT HI) as (params & c & cs & idt & H1 & H2 & H3 & H4 & H5).
  exists params, c, cs, idt. destruct HR as (uid & rest & ->). cbn [skipn] in *.
  split; [apply (answered_app _ _ _ [_; _; _]); [reflexivity|exact H1]|]. split; [auto|]. split; [auto|].
  split; [right; right; right; exact H4|]. auto.
Qed.
Print Assumptions C23_hashes_when_completing.

Theorem C23_hashes_without_asking : forall E pol r tr res f,
  exec (handle_request E pol r) tr res -> asks_for r f ->
  f_type f <> FAuthorizationCode -> f_id f = true -> existsb issues (ops tr) = true ->
  http_ops tr <> [] ->
  (exists c mode typ, approved r c tr /\ error_sent mode (form_value r "redirect_uri") (form_value r "state") typ tr)
  \/ exists c q, validated pol r c q /\ rq_flow q = Some f /\ hashes_sent E q f tr.
Proof.
  intros E pol r tr res f H HF HT HI HIS HN.
  destruct res as [b|]; [|apply handle_panicked in H; contradiction].
  apply handle_handled in H. destruct H as [H1 H2|c q H1 H2 H3 H4|c mode typ H1 H2 H3|c q f' info pre tc H1 H2 H3 H4 H5 H6].
  - apply error_screen_quiet in H1. contradiction.
  - contradiction.
  - left. eauto 6.
  - right. exists c, q. split; [auto|].
    assert (f' = f) as ->.
    { destruct (v_flow _ _ _ _ H2) as (f2 & l & K1 & K2 & K3 & _). rewrite H3 in K1. injection K1 as <-.
      eapply asks_unique; [exists l; eauto|eauto]. }
    split; [auto|].
    destruct (completed_hashes _ _ _ _ _ f H6 H3 HT HI) as (params & c' & cs & idt & K1 & K2 & K3 & K4 & K5).
    exists params, c', cs, idt. subst tr. split; [apply answered_app; auto|]. split; [auto|]. split; [auto|].
    split; [apply in_or_app; auto|auto].
Qed.
Print Assumptions C23_hashes_without_asking.

(* OpenID Connect Core (3.1.3.6, 3.3.2.11) wants base64url: for RS256 and RS512
   clients no hash claim is ever right. *)
Theorem C23_encoding_refuted : forall alg t h,
  left_half alg t h -> (exists p, alg = (p ++ "256")%string \/ alg = (p ++ "512")%string) ->
  rfc4648_std h <> rfc4648_url h.
Proof.
  intros alg t h H (p & HA).
  assert (HL : String.length h = 16%nat \/ String.length h = 32%nat).
  { assert (X : forall a b, (a ++ "256" = b ++ "384")%string \/ (a ++ "512" = b ++ "384")%string -> False).
    { intros a b X.
      assert (Y : has_suffix "384" (a ++ "256")%string = true \/ has_suffix "384" (a ++ "512")%string = true).
      { destruct X as [X|X]; [left|right]; rewrite X; apply has_suffix_spec; eauto. }
      assert (Z : forall s, String.length s = 3%nat -> s <> "384" -> has_suffix "384" (a ++ s)%string = false).
      { clear. intros s HL HS. induction a as [|x a IH].
        - destruct s as [|a1 [|a2 [|a3 [|]]]]; try discriminate HL. simpl "++".
          cbn [has_suffix]. destruct (String a1 (String a2 (String a3 "")) =s? "384") eqn:E1;
            [apply seqb_eq in E1; congruence|].
          destruct (String a2 (String a3 "") =s? "384") eqn:E2; [apply seqb_eq in E2; discriminate|].
          destruct (String a3 "" =s? "384") eqn:E3; [apply seqb_eq in E3; discriminate|]. reflexivity.
        - change ((String x a ++ s)%string) with (String x (a ++ s)%string). cbn [has_suffix]. rewrite IH.
          destruct (String x (a ++ s) =s? "384") eqn:E1; [|reflexivity]. apply seqb_eq in E1.
          apply (f_equal String.length) in E1. simpl in E1. rewrite length_append, HL in E1. lia. }
      rewrite !Z in Y; try reflexivity; try discriminate. destruct Y; discriminate. }
    destruct H as [(q & _ & ->)|[(q & HQ & _)|(q & _ & ->)]].
    - left. apply substring_length. rewrite sha256_length. lia.
    - exfalso. destruct HA as [HA|HA]; rewrite HA in HQ; eapply X; eauto.
    - right. apply substring_length. rewrite sha512_length. lia. }
  destruct (std_unpadded h) as [H0|H0]; [|exact H0].
  destruct HL as [HL|HL]; rewrite HL in H0; discriminate.
Qed.
Print Assumptions C23_encoding_refuted.

(* A JWT library whose tokens show the at_hash claim. *)
Definition showJ : jwtlib :=
  JwtLib (jl_parse demoJ) (jl_claims demoJ) (jl_verify demoJ) (fun _ => true)
    (fun alg kid cs k =>
       match find (fun p => fst p =s? "at_hash") cs with Some (_, CStr v) => Some v | _ => Some "none" end).
Definition base64_of_hash : string := rfc4648_std (substring 0 16 (sha256 "access1")).
Example C23_example :
  let w := storing (Some (stored_request FImplicit true true)) answers2 in
  let tr := trace_of w (complete_request (Env showJ (fun _ => true)) default_policy) in
  exec (complete_request (Env showJ (fun _ => true)) default_policy) tr (Done true) /\
  http_ops tr = [ORedirect ("https://rp.example/cb#access_token=access1&id_token=" ++ qescape base64_of_hash
     ++ "&rexpires_in=3600&scope=openid+email&state=s1&token_type=bearer")] /\
  has_suffix "==" base64_of_hash = true.
Proof.
  split; [apply demo_run; vm_compute; reflexivity|]. split; vm_compute; reflexivity.
Qed.

(** ** C56 When the authorization endpoint can panic. *)

Theorem C56_handle_panics : forall E pol r tr,
  exec (handle_request E pol r) tr Panicked ->
  http_ops tr = [] /\
  (e_url_ok E (form_value r "redirect_uri") = false \/ exists e, In e tr /\ nil_answer e).
Proof. intros E pol r tr H. split; [eapply handle_panicked; eauto|]. exact (safe_handle E pol r tr H). Qed.
Print Assumptions C56_handle_panics.

Theorem C56_nil_client_refuted :
  exists E pol r tr, exec (handle_request E pol r) tr Panicked /\
    In (Ev (OFindClient (form_value r "client_id")) (None, Some (ErrOther 9))) tr.
Proof.
  exists demoE, default_policy, hybrid_request, [Ev (OFindClient "client1") (None, Some (ErrOther 9))].
  split; [|left; reflexivity]. unfold handle_request, hr_client, call. cbn. constructor. constructor.
Qed.
Print Assumptions C56_nil_client_refuted.

Example C56_example : exec (handle hybrid_request) (trace_of answers2 (handle hybrid_request)) (Done true).
Proof. apply demo_run. vm_compute. reflexivity. Qed.

(** ** C57 prompt=none policies are enforced. *)

Theorem C57_none_policies : forall E pol r tr res t1 o c,
  exec (handle_request E pol r) tr res -> performs tr t1 o -> issues o = true ->
  form_value r "prompt" = "none" -> approved r c t1 ->
  exists q info, validated pol r c q /\ issues_for pol q o info t1 /\
    consent_on_record pol q info t1 /\ none_policy (e_jwt E) c q t1.
Proof.
  intros E pol r tr res t1 o c H HP HI HN HA.
  destruct (handle_issue _ _ _ _ _ _ _ H HP HI) as (c' & q & info & H1 & H2 & (H3 & _ & _ & H5 & _) & H6).
  rewrite <- (approved_unique _ _ _ _ HA H1) in *. exists q, info. split; [auto|]. split; [auto|].
  split; [auto|]. apply H5. rewrite (proj1 (v_prompt _ _ _ _ H2)). exact HN.
Qed.
Print Assumptions C57_none_policies.

Example C57_example :
  existsb issues (ops (trace_of logged_out_hint (handle hint_request))) = true /\
  existsb issues (ops (trace_of logged_out (handle (none_request "none")))) = false.
Proof. vm_compute. auto. Qed.
