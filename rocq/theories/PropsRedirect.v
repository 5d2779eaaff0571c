(** * Property theorems about what the browser is sent: C94. *)
From Coq Require Import Lia Permutation.
From Verif Require Import GoStr Codec StrFacts Core AuthzResponse AuthzEndpoint Spec TokenSpec AuthzSpec AuthzFacts
  AuthzProofs AuthzMore Hoare CodecSpec CodecFacts UrlParse HttpSpec RedirectSpec RedirectFacts Demo PropsAuthz PropsCodec
  PropsOutput FlowSpec PropsFlow.

(** ** C94 Browsers are sent to the registered URI. *)

Lemma answered_redirect mode u params tr : answered mode u params tr -> mode <> "form_post" ->
  exists k, http_ops tr = [ORedirect (location k u params)].
Proof.
  intros (pre & ta & -> & HP & HS) HM. rewrite http_ops_app, HP. inversion HS; subst; [congruence| |]; eexists; reflexivity.
Qed.
Lemma safe_ascii s : url_safe s -> all_bytes ascii_byte s = true.
Proof.
  intros H. apply all_in. intros b HB. unfold url_safe in H. rewrite Forall_forall in H. specialize (H b HB).
  apply (chars_all _ ascii_byte b H). reflexivity.
Qed.
Lemma absolute_app u x : absolute u -> absolute (u ++ x).
Proof. intros (s & r & HS & ->). exists s, (r ++ x)%string. split; [exact HS|]. rewrite !app_assoc_s. reflexivity. Qed.

(* A registered URI as RFC 3986 writes it: the Location is this URI, byte by byte, and
   then only characters that need no escaping. *)
Theorem C94_registered_uri : forall mode u params tr meth path ct,
  answered mode u params tr -> mode <> "form_post" -> uri u ->
  exists rest, url_safe rest /\ sent_to (u ++ rest) (writes meth path ct (http_ops tr)).
Proof.
  intros mode u params tr meth path ct HA HM HU. destruct (answered_redirect _ _ _ _ HA HM) as (k & ->).
  destruct (C70_location k u params) as (rest & -> & HR). exists rest. split; [exact HR|].
  cbn [writes flat_map]. rewrite app_nil_r. pose proof (writes_redirect meth path ct (u ++ rest)) as H.
  rewrite absolute_target in H by (apply absolute_app, uri_absolute, HU).
  rewrite hex_non_ascii_id in H; [exact H|]. rewrite all_app, (uri_ascii _ HU), (safe_ascii _ HR). reflexivity.
Qed.
Print Assumptions C94_registered_uri.

(* Anything that begins with a scheme: bytes that are not ASCII are escaped. *)
Theorem C94_absolute : forall mode u params tr meth path ct,
  answered mode u params tr -> mode <> "form_post" -> absolute u ->
  exists rest h, url_safe rest /\ ascii_form (u ++ rest) h /\ sent_to h (writes meth path ct (http_ops tr)).
Proof.
  intros mode u params tr meth path ct HA HM HU. destruct (answered_redirect _ _ _ _ HA HM) as (k & ->).
  destruct (C70_location k u params) as (rest & -> & HR). exists rest, (hex_non_ascii (u ++ rest)).
  split; [exact HR|]. split; [apply ascii_form_fun|].
  cbn [writes flat_map]. rewrite app_nil_r. pose proof (writes_redirect meth path ct (u ++ rest)) as H.
  rewrite absolute_target in H by (apply absolute_app, HU). exact H.
Qed.
Print Assumptions C94_absolute.

(* Whatever a client registers: the browser is sent there, or stays on this server. *)
Theorem C94_nowhere_else : forall mode u params tr meth path ct,
  answered mode u params tr -> mode <> "form_post" -> has_prefix "/" path = true ->
  exists h, sent_to h (writes meth path ct (http_ops tr)) /\
    ((exists rest, url_safe rest /\ ascii_form (u ++ rest) h) \/ own_path h).
Proof.
  intros mode u params tr meth path ct HA HM HP. destruct (answered_redirect _ _ _ _ HA HM) as (k & ->).
  destruct (C70_location k u params) as (rest & -> & HR). exists (hex_non_ascii (redirect_target path (u ++ rest))).
  cbn [writes flat_map]. rewrite app_nil_r. split; [apply writes_redirect|].
  destruct (target_cases path (u ++ rest) HP) as [E|HO].
  - left. exists rest. rewrite E. split; [exact HR|apply ascii_form_fun].
  - right. apply own_ascii, HO.
Qed.
Print Assumptions C94_nowhere_else.

(* Requests to the endpoint: who approved the URI. *)
Theorem C94_requests : forall J pol r tr res loc meth path ct,
  exec (handle_request (go_env J) pol r) tr res -> In (ORedirect loc) (ops tr) -> uri (form_value r "redirect_uri") ->
  exists c rest, approved r c tr /\ url_safe rest /\
    sent_to (form_value r "redirect_uri" ++ rest) (writes meth path ct (http_ops tr)).
Proof.
  intros J pol r tr res loc meth path ct H HL HU.
  assert (HL' : In (ORedirect loc) (http_ops tr)) by (apply filter_In; auto).
  assert (HN : http_ops tr <> []) by (intros HN; rewrite HN in HL'; contradiction).
  destruct (C30_redirects_only_to_the_approved_uri _ _ _ _ _ H HN) as (c & mode & params & HA & HS).
  assert (HM : mode <> "form_post").
  { intros ->. destruct HS as (pre & ta & -> & HP & HS). rewrite http_ops_app, HP in HL'.
    inversion HS; subst; [|congruence|congruence]. cbn in HL'. repeat (destruct HL' as [HL'|HL']; [discriminate HL'|]). exact HL'. }
  destruct (C94_registered_uri mode _ params tr meth path ct HS HM HU) as (rest & HR & HT). eauto.
Qed.
Print Assumptions C94_requests.

(* The body: for GET requests a link to the same place that cannot be broken out of,
   for others nothing. *)
Theorem C94_body : forall mode u params tr meth path ct,
  answered mode u params tr -> mode <> "form_post" -> absolute u ->
  (meth = "GET" -> ct = false -> exists rest doc, url_safe rest /\
     bodies_of (writes meth path ct (http_ops tr)) = [doc] /\ links_to (u ++ rest) doc) /\
  (meth <> "GET" \/ ct = true -> bodies_of (writes meth path ct (http_ops tr)) = []).
Proof.
  intros mode u params tr meth path ct HA HM HU. destruct (answered_redirect _ _ _ _ HA HM) as (k & ->).
  destruct (C70_location k u params) as (rest & -> & HR). cbn [writes flat_map]. rewrite app_nil_r. split.
  - intros -> ->. unfold redirect_writes. rewrite absolute_target by (apply absolute_app, HU).
    exists rest. eexists. split; [exact HR|]. split; [reflexivity|]. apply link_reads.
  - intros HX. unfold redirect_writes.
    assert (E : (negb ct && (meth =s? "GET"))%bool = false).
    { destruct HX as [HX| ->]; [|reflexivity]. apply seqb_neq in HX. rewrite HX. apply andb_false_r. }
    rewrite E. destruct (negb ct && ((meth =s? "GET") || (meth =s? "HEAD")))%bool; reflexivity.
Qed.
Print Assumptions C94_body.

(* The parameters are in the Location: what C44 says of the URL holds of the header. *)
Theorem C94_parameters : forall mode u params tr own meth path ct,
  answered mode u params tr -> mode <> "form_post" -> uri u ->
  (mode <> "fragment" -> no_byte "#" u ->
   (no_byte "?" u /\ own = []) \/ (exists q, query_part u q /\ q <> "" /\ parse_query q = Some own) ->
   exists h q sorted, sent_to h (writes meth path ct (http_ops tr)) /\ query_part h q /\
     parse_query q = Some (own ++ sorted)%list /\ Permutation sorted params) /\
  (mode = "fragment" ->
   (no_byte "#" u /\ own = []) \/ (exists f, fragment_part u f /\ f <> "" /\ parse_query f = Some own) ->
   exists h f sorted, sent_to h (writes meth path ct (http_ops tr)) /\ fragment_part h f /\
     parse_query f = Some (own ++ sorted)%list /\ Permutation sorted params).
Proof.
  intros mode u params tr own meth path ct HA HM HU.
  assert (HW : forall loc x, http_ops tr = [ORedirect loc] -> loc = (u ++ x)%string -> url_safe x ->
    sent_to loc (writes meth path ct (http_ops tr))).
  { intros loc x -> -> HR. cbn [writes flat_map]. rewrite app_nil_r.
    pose proof (writes_redirect meth path ct (u ++ x)) as H.
    rewrite absolute_target in H by (apply absolute_app, uri_absolute, HU).
    rewrite hex_non_ascii_id in H; [exact H|]. rewrite all_app, (uri_ascii _ HU), (safe_ascii _ HR). reflexivity. }
  assert (HX : forall loc x, http_ops tr = [ORedirect loc] -> loc = (u ++ x)%string -> url_safe x).
  { intros loc x H1 H2. destruct (answered_redirect _ _ _ _ HA HM) as (k & H3). rewrite H1 in H3. injection H3 as H3.
    destruct (C70_location k u params) as (rest & H4 & HR). rewrite H3, H4 in H2.
    apply app_inj_l in H2. subst. exact HR. }
  split.
  - intros HF HN HO. destruct (C44_query mode u params tr own HA HM HF HN HO) as (loc & q & sorted & x & H1 & H2 & H3 & _ & H4 & H5).
    exists loc, q, sorted. repeat split; auto; eapply HW; eauto.
  - intros -> HO. destruct (C44_fragment u params tr own HA HO) as (loc & f & sorted & x & H1 & H2 & H3 & H4 & H5).
    exists loc, f, sorted. repeat split; auto; eapply HW; eauto.
Qed.
Print Assumptions C94_parameters.

(* With a registered URI as RFC 3986 writes it, only a nil answer of the application
   makes a handler panic. *)
Theorem C94_requests_do_not_panic : forall J pol r tr,
  exec (handle_request (go_env J) pol r) tr Panicked -> uri (form_value r "redirect_uri") ->
  exists e, In e tr /\ nil_answer e.
Proof.
  intros J pol r tr H HU. destruct (C56_handle_panics _ _ _ _ H) as [_ [HX|HX]]; [|exact HX].
  cbn [go_env e_url_ok] in HX. rewrite (uri_parses _ HU) in HX. discriminate.
Qed.
Print Assumptions C94_requests_do_not_panic.

Lemma complete_request_panics E pol q rest :
  exec (complete_request E pol) (Ev OContinue (Some (Some q)) :: rest) Panicked -> rq_flow q <> None ->
  e_url_ok E (rq_redirect q) = false \/ exists e, In e rest /\ nil_answer e.
Proof.
  intros H HF. unfold complete_request, call in H. cbn [bind] in H.
  apply exec_inv in H. destruct H as (a & tr' & HE & H).
  apply (f_equal (@List.tl event)) in HE as HT. cbn [tl] in HT. subst tr'.
  assert (a = Some (Some q)).
  { apply (f_equal (fun l => match l with
      | Ev o a :: _ => (match o as o0 return ans o0 -> cres (option arequest) with
                        | OContinue => fun x => x | _ => fun _ => None end) a
      | [] => None end)) in HE. symmetry. exact HE. }
  subst a. cbn in H. clear HE.
  assert (HS : safe (e_url_ok E (rq_redirect q) = false)
    (Vis OLoginUser (fun ru => match ru with
      | None => callback_failed E q "GetLoginUserId"
      | Some uid => Vis (OCreateInfo uid (rq_client q) (rq_scope q)) (fun ri => match ri with
          | (_, Some _) => answer_error E q "server_error" ""
          | (info, None) => complete E pol info q end) end))).
  { apply safe_vis. intros [uid|]; right; [|repeat sstep].
    apply safe_vis. intros [[info|] [e|]]; try (right; repeat sstep; fail).
    - right. apply safe_complete. exact HF.
    - left. reflexivity. }
  exact (HS _ H).
Qed.

Theorem C94_completing_does_not_panic : forall J pol r tr0 res0 q rest,
  exec (handle_request (go_env J) pol r) tr0 res0 -> shown q tr0 -> uri (form_value r "redirect_uri") ->
  exec (complete_request (go_env J) pol) (Ev OContinue (Some (Some q)) :: rest) Panicked ->
  exists e, In e rest /\ nil_answer e.
Proof.
  intros J pol r tr0 res0 q rest H0 HS HU H. destruct (shown_validated _ _ _ _ _ _ H0 HS) as (c & HA & HV).
  destruct (v_flow _ _ _ _ HV) as (f & l & Hf & _).
  destruct (complete_request_panics _ _ _ _ H) as [HX|HX]; [congruence| |exact HX].
  rewrite (v_redirect _ _ _ _ HV) in HX. cbn [go_env e_url_ok] in HX. rewrite (uri_parses _ HU) in HX. discriminate.
Qed.
Print Assumptions C94_completing_does_not_panic.

Theorem C94_cancelling_does_not_panic : forall J pol r tr0 res0 q rest,
  exec (handle_request (go_env J) pol r) tr0 res0 -> shown q tr0 -> uri (form_value r "redirect_uri") ->
  ~ exec (cancel_request (go_env J)) (Ev OContinue (Some (Some q)) :: rest) Panicked.
Proof.
  intros J pol r tr0 res0 q rest H0 HS HU H. destruct (shown_validated _ _ _ _ _ _ H0 HS) as (c & HA & HV).
  unfold cancel_request, call in H. cbn [bind] in H.
  apply exec_inv in H. destruct H as (a & tr' & HE & H).
  assert (a = Some (Some q)).
  { apply (f_equal (fun l => match l with
      | Ev o a :: _ => (match o as o0 return ans o0 -> cres (option arequest) with
                        | OContinue => fun x => x | _ => fun _ => None end) a
      | [] => None end)) in HE. symmetry. exact HE. }
  subst a. clear HE. unfold rh_error in H.
  assert (HP : forall (p : prog unit), (forall tr, ~ exec p tr Panicked) -> forall tr, ~ exec (p ;;; Ret true) tr Panicked).
  { intros p Hp tr HX. apply exec_bind in HX. destruct HX as [(t1 & t2 & x & _ & HX & _)|[HX _]]; [|exact (Hp _ HX)].
    apply exec_inv in HX. destruct HX as [_ HX]. discriminate. }
  revert H. apply HP. intros tr HX.
  unfold rh_success in HX. destruct (kind_of q); cbn [go_env e_url_ok] in HX;
    rewrite ?(v_redirect _ _ _ _ HV), ?(uri_parses _ HU) in HX; unfold call in HX; cbn [bind] in HX;
    repeat (apply exec_inv in HX; match type of HX with
            | exists a tr', _ => destruct HX as (? & ? & -> & HX)
            | _ /\ _ => destruct HX as [_ HX]; discriminate
            end).
Qed.
Print Assumptions C94_cancelling_does_not_panic.

(* A registered URI that url.Parse does not accept: the handler panics although the
   client approves the URI, and nothing is written. *)
Definition client_of (u : string) : client :=
  Client "client1" 42 "RS256" "key1" (Some (KRsaPriv 1))
    (fun s => s =s? "secret1") (fun _ => true) (fun _ => true) (fun _ s => negb (s =s? "forbidden"))
    (fun v => v =s? u) (fun _ _ => Some (KRsaPub 1)) OmitConsentIfCan NoneAllowWithLoginSession.
Definition code_asked (u : string) : request :=
  Request "GET" "/oauth/authorize" []
    [("client_id", "client1"); ("redirect_uri", u); ("state", "s1"); ("response_type", "code");
     ("scope", "openid email")] [].
Definition go_handle (r : request) : prog bool := handle_request (go_env demoJ) default_policy r.
Definition go_trace (u : string) : list event := trace_of (with_client (client_of u) answers2) (go_handle (code_asked u)).

Theorem C94_malformed_uri_panics_refuted :
  let u := "https://rp.example/100%" in
  exec (go_handle (code_asked u)) (go_trace u) Panicked /\ approved (code_asked u) (client_of u) (go_trace u) /\
  http_ops (go_trace u) = [] /\ (forall e, In e (go_trace u) -> ~ nil_answer e).
Proof.
  cbv zeta. split; [apply demo_run; vm_compute; reflexivity|].
  split; [|split; [vm_compute; reflexivity|]].
  - repeat split; try (vm_compute; congruence). do 2 eexists. split; [vm_compute; reflexivity|exact I].
  - intros e HE. vm_compute in HE. 
    repeat (destruct HE as [<-|HE]; [intros HN; cbn in HN; first [contradiction HN|discriminate HN|destruct HN as [HN|[n HN]]; discriminate HN]|]).
    contradiction HE.
Qed.
Print Assumptions C94_malformed_uri_panics_refuted.

(* A relative registered URI is made a path of the server that answers: the code does not
   go to the URI that was registered, as it is written. *)
Theorem C94_relative_uri_refuted :
  let u := "../cb" in
  exec (go_handle (code_asked u)) (go_trace u) (Done true) /\ approved (code_asked u) (client_of u) (go_trace u) /\
  answered "query" u [("code", "code1"); ("state", "s1")] (go_trace u) /\
  sent_to "/cb?code=code1&state=s1" (writes "GET" "/oauth/authorize" false (http_ops (go_trace u))).
Proof.
  cbv zeta. split; [apply demo_run; vm_compute; reflexivity|]. split; [|split].
  - repeat split; try (vm_compute; congruence). do 2 eexists. split; [vm_compute; reflexivity|exact I].
  - exists (removelast (go_trace "../cb")), [Ev (ORedirect (location RQuery "../cb" [("code", "code1"); ("state", "s1")])) tt].
    split; [vm_compute; reflexivity|]. split; [vm_compute; reflexivity|]. constructor; discriminate.
  - split; [vm_compute; reflexivity|]. split; [vm_compute; reflexivity|].
    exists [OSetHeader "Location" "/cb?code=code1&state=s1"; OSetHeader "Content-Type" "text/html; charset=utf-8"].
    eexists. split; [vm_compute; reflexivity|left; reflexivity].
Qed.
Print Assumptions C94_relative_uri_refuted.

(** Two URIs: a web application's, and a native application's. *)
Lemma in_set set s : forallb (fun b => existsb (Ascii.eqb b) (list_ascii_of_string set)) (list_ascii_of_string s) = true ->
  forall b, In b (list_ascii_of_string s) -> chars set b.
Proof.
  intros H b HB. rewrite forallb_forall in H. specialize (H b HB). apply existsb_exists in H.
  destruct H as (x & HX & E). apply Ascii.eqb_eq in E. subst. exact HX.
Qed.
Lemma plain_text set s : (forall b, In b (list_ascii_of_string s) -> chars set b) -> text set s.
Proof.
  induction s as [|a s IH]; intros H; [constructor|]. apply text_char; [apply H; left; reflexivity|].
  apply IH. intros b HB. apply H. right. exact HB.
Qed.
Lemma plain_name s : (forall b, In b (list_ascii_of_string s) -> chars name_chars b) -> reg_name s.
Proof.
  induction s as [|a s IH]; intros H; [constructor|]. apply reg_char; [apply H; left; reflexivity|].
  apply IH. intros b HB. apply H. right. exact HB.
Qed.
Example C94_example_uris :
  uri "https://rp.example:8443/cb?tenant=a%2Fb" /\ uri "com.example.app:/oauth/cb" /\ uri "https://[2001:db8::1]/cb".
Proof.
  split; [|split].
  - change "https://rp.example:8443/cb?tenant=a%2Fb" with
      ("https" ++ ":" ++ ("//" ++ "" ++ "rp.example" ++ (":" ++ "8443") ++ "/" ++ "cb") ++ ("?" ++ "tenant=a%2Fb") ++ "")%string.
    constructor.
    + constructor; [vm_compute; tauto|]. apply in_set. reflexivity.
    + apply hier_authority_path; [constructor|apply host_name, plain_name; apply in_set; reflexivity|
        constructor; apply in_set; reflexivity|apply plain_text; apply in_set; reflexivity].
    + constructor. do 8 (apply text_char; [vm_compute; tauto|]).
      apply text_escape with (x := 2%N) (y := 15%N); [exact (hx_digit 2 eq_refl)|apply (hx_upper 15); split; [discriminate|reflexivity]|].
      apply plain_text. apply in_set. reflexivity.
    + constructor.
  - change "com.example.app:/oauth/cb" with ("com.example.app" ++ ":" ++ ("/" ++ "oauth/cb") ++ "" ++ "")%string.
    constructor; try constructor.
    + vm_compute; tauto.
    + apply in_set. reflexivity.
    + apply plain_text. apply in_set. reflexivity.
    + intros r E. discriminate.
  - change "https://[2001:db8::1]/cb" with ("https" ++ ":" ++ ("//" ++ "" ++ ("[" ++ "2001:db8::1" ++ "]") ++ "" ++ "/" ++ "cb") ++ "" ++ "")%string.
    constructor; [constructor; [vm_compute; tauto|apply in_set; reflexivity]| |constructor|constructor].
    apply hier_authority_path; [constructor|apply (host_literal "2001:db8::1"); apply in_set; reflexivity|constructor|
      apply plain_text; apply in_set; reflexivity].
Qed.
Example C94_example :
  let u := "https://rp.example:8443/cb?tenant=a%2Fb" in
  exec (go_handle (code_asked u)) (go_trace u) (Done true) /\
  writes "GET" "/oauth/authorize" false (http_ops (go_trace u)) =
    [OSetHeader "Location" "https://rp.example:8443/cb?tenant=a%2Fb&code=code1&state=s1";
     OSetHeader "Content-Type" "text/html; charset=utf-8"; OStatus 302;
     OBody ("<a href=" ++ dq "https://rp.example:8443/cb?tenant=a%2Fb&amp;code=code1&amp;state=s1" ++ ">Found</a>."
            ++ newline_s ++ newline_s)].
Proof. split; [apply demo_run; vm_compute; reflexivity|vm_compute; reflexivity]. Qed.
