(** * What clients read in the challenges.

    The grammar of challenges (RFC 7235) is in ChallengeSpec.v, the reasons for which
    the protector refuses a request in ResourceSpec.v. *)
From Coq Require Import Lia.
From Verif Require Import GoStr Codec Utils Core OAuthError Grants TokenEndpoint ResourceProtector Spec TokenSpec
  ResourceSpec TokenFacts TokenMore Hoare GrantFacts ResourceFacts Demo StrFacts CodecFacts PropsResource PropsToken
  TokenComplete ChallengeSpec ChallengeFacts.

(** ** C95 Clients can read the challenges. *)

(* No header can be read in two ways. *)
Theorem C95_one_reading : forall h scheme l scheme' l',
  reads_challenge h scheme l -> reads_challenge h scheme' l' -> scheme = scheme' /\ l = l'.
Proof. exact challenge_unique. Qed.
Print Assumptions C95_one_reading.

(* Whatever printable text the realm, the description and the URI hold - quotes,
   commas and backslashes included - is what the client reads. *)
Theorem C95_bearer : forall e realm,
  printable realm -> printable (oe_desc e) -> printable (oe_uri e) ->
  reads_challenge (oerr_header e realm) "Bearer"
    (unless_empty "realm" realm ++ [("error", oerr_name (oe_type e))]
     ++ unless_empty "error_description" (oe_desc e) ++ unless_empty "error_uri" (oe_uri e))%list.
Proof. intros e realm. exact (header_reads e realm). Qed.
Print Assumptions C95_bearer.

(** What the protector has to say about a refused request: error code, description
    and status, with the reason. *)
Inductive says (rp : protector) (m : scope_map) (r : request) (tr : list event) : oerr_type -> string -> Z -> Prop :=
| says_no_token :
    (forall t, ~ token_from rp r t) -> says rp m r tr EInvalidRequest "" 400
| says_unknown t x ev :
    token_from rp r t -> In ev tr -> ev = Ev (OFindByAccess t) (x, Some ErrFailed) ->
    says rp m r tr EInvalidToken "" 401
| says_inactive id x ev :
    In ev tr -> ev = Ev (OFindActiveInfo id) (x, Some ErrFailed) -> says rp m r tr EInvalidToken "" 401
| says_expired t tok now :
    token_from rp r t -> In (Ev (OFindByAccess t) (Some tok, None)) tr -> In (Ev ONow now) tr -> ~ access_live tok now ->
    says rp m r tr EInvalidToken "your access_token is expired" 401
| says_scope id info scopes s x :
    In (Ev (OFindActiveInfo id) (Some info, None)) tr -> required m (r_path r) scopes -> In s scopes ->
    ~ has_word (ai_scope info) s -> quoted x s ->
    says rp m r tr EInsufficientScope
      ("this endpoint requires " ++ in_quotes x ++ " scope, but the access_token was't issued for.") 403.

(** The operator's configuration is printable. *)
Definition printable_config (rp : protector) (m : scope_map) : Prop :=
  printable (rp_realm rp) /\ (forall f t, rp_uri rp = Some f -> printable (f t)) /\
  (forall path scopes s, In (path, scopes) m -> In s scopes -> printable s).

(** The answer is a bare 500, or exactly one challenge that reads as what the
    protector has to say, with the matching status. *)
Definition readable_refusal (rp : protector) (m : scope_map) (r : request) (tr : list event) : Prop :=
  http_ops tr = [OStatus 500] \/
  exists v t desc st,
    http_ops tr = [OSetHeader "WWW-Authenticate" v; OStatus st] /\ says rp m r tr t desc st /\
    reads_challenge v "Bearer"
      (unless_empty "realm" (rp_realm rp) ++ [("error", oerr_name t)] ++ unless_empty "error_description" desc
       ++ unless_empty "error_uri" (match rp_uri rp with Some f => f t | None => "" end))%list.

Lemma challenge_reads rp t desc o :
  printable (rp_realm rp) -> (forall f t, rp_uri rp = Some f -> printable (f t)) -> printable desc ->
  challenge rp (OErr t desc "") o ->
  exists v, o = [OSetHeader "WWW-Authenticate" v; OStatus (oerr_status t)] /\
    reads_challenge v "Bearer"
      (unless_empty "realm" (rp_realm rp) ++ [("error", oerr_name t)] ++ unless_empty "error_description" desc
       ++ unless_empty "error_uri" (match rp_uri rp with Some f => f t | None => "" end))%list.
Proof.
  intros HR HU HD (e' & (ET & ED & EU) & ->). eexists. split; [reflexivity|]. cbn [oe_type oe_desc oe_uri] in ET, ED, EU.
  assert (EU' : oe_uri e' = match rp_uri rp with Some f => f t | None => "" end).
  { destruct (rp_uri rp); [|exact EU]. destruct EU as [[HN _]|[_ ->]]; [congruence|reflexivity]. }
  rewrite <- EU', <- ET, <- ED. apply C95_bearer; [exact HR|rewrite ED; exact HD|].
  rewrite EU'. destruct (rp_uri rp) as [f|] eqn:EF; [exact (HU f t eq_refl)|intros a []].
Qed.

Lemma refusal_reads rp m r tr : printable_config rp m -> resource_refusal rp r tr -> readable_refusal rp m r tr.
Proof.
  intros (HR & HU & _) H.
  assert (HC : forall t desc, printable desc -> says rp m r tr t desc (oerr_status t) ->
            challenge rp (OErr t desc "") (http_ops tr) -> readable_refusal rp m r tr).
  { intros t desc HD HS H'. destruct (challenge_reads rp t desc _ HR HU HD H') as (v & HO & HV).
    right. exists v, t, desc, (oerr_status t). auto. }
  assert (HD : forall x ev, In ev (data_calls x) -> In ev x).
  { intros x ev Hi. unfold data_calls in Hi. apply filter_In in Hi. tauto. }
  assert (HK : forall x ev, In ev (calls x) -> In ev x).
  { intros x ev Hi. unfold calls in Hi. apply filter_In in Hi. tauto. }
  destruct H as [HN HT H|t x HT HE H|t tok now now2 HT HE HA H|t tok now x HT HE HA H|ev Hi Hf HO].
  - refine (HC _ _ (printable_b "" eq_refl) _ H). apply says_no_token. exact HN.
  - refine (HC _ _ (printable_b "" eq_refl) _ H). eapply says_unknown; [exact HT| |reflexivity].
    apply HD. rewrite HE. left. reflexivity.
  - refine (HC _ _ _ _ H); [apply printable_b; reflexivity|]. apply (says_expired rp m r tr t tok now HT); [| |exact HA];
      apply HK; rewrite HE; [left|right; left]; reflexivity.
  - refine (HC _ _ (printable_b "" eq_refl) _ H). eapply says_inactive; [|reflexivity].
    apply HK. rewrite HE. right; right; left. reflexivity.
  - left. exact HO.
Qed.

Theorem C95_protector : forall rp r m tr r',
  NoDup (map fst m) -> printable_config rp m ->
  exec (validate rp r) tr (Done (false, r')) \/ exec (validate_with_scopes rp r m) tr (Done (false, r')) ->
  readable_refusal rp m r tr.
Proof.
  intros rp r m tr r' HN HP [H|H].
  - apply C25_refusals in H. apply refusal_reads; tauto.
  - apply (C26_scopes_enforced rp r m tr false r' HN) in H. cbn match in H.
    destruct H as [[_ H]|(s & t & tok & now & info & pre & post_ & HT & HA & HQ & HPre & HW & HE & HC)];
      [apply refusal_reads; assumption|].
    destruct HP as (HR & HU & HS).
    assert (HSP : printable s) by (apply (HS _ _ s HQ), in_or_app; right; left; reflexivity).
    assert (HSA : ascii_text s) by (intros a HI; specialize (HSP a HI); lia).
    destruct (challenge_reads rp EInsufficientScope _ _ HR HU
       (printable_app _ _ (printable_b "this endpoint requires " eq_refl)
          (printable_app _ _ (printable_quote s HSA)
             (printable_b " scope, but the access_token was't issued for." eq_refl))) HC) as (v & HO & HV).
    right. exists v, EInsufficientScope. do 2 eexists. split; [exact HO|]. split; [|exact HV].
    change (go_quote s) with (in_quotes (concat_map quote_byte s)).
    refine (says_scope rp m r tr (ot_auth_id tok) info _ s _ _ HQ _ HW (quoted_of s HSP)).
    + assert (HI : In (Ev (OFindActiveInfo (ot_auth_id tok)) (Some info, None)) (calls tr))
        by (rewrite HE; right; right; left; reflexivity).
      unfold calls in HI. apply filter_In in HI. tauto.
    + apply in_or_app. right. left. reflexivity.
Qed.
Print Assumptions C95_protector.

(** No double quote and no backslash: characters a realm of the token endpoint must
    not have. *)
Definition unescaped (s : string) : Prop := ~ In dquote (list_ascii_of_string s) /\ ~ In backslash (list_ascii_of_string s).

Lemma quoted_self s : printable s -> unescaped s -> quoted s s.
Proof.
  induction s as [|a s IH]; intros HP [HD HB]; [constructor|]. constructor.
  - right. specialize (HP a (or_introl eq_refl)). lia.
  - intros ->. apply HD. left. reflexivity.
  - intros ->. apply HB. left. reflexivity.
  - apply IH; [intros b Hb; apply HP; right; exact Hb|].
    split; intros HI; [apply HD|apply HB]; right; exact HI.
Qed.

Lemma basic_reads realm : printable realm -> unescaped realm ->
  reads_challenge (snd (basic_challenge realm)) "Basic" [("realm", realm)].
Proof.
  intros HP HU. exists "", ("realm=" ++ in_quotes realm)%string. split; [reflexivity|].
  split; [apply token_b; [discriminate|reflexivity]|]. split; [intros a []|].
  apply (params_one "realm"); [apply token_b; [discriminate|reflexivity]|apply quoted_self; assumption].
Qed.

(* The token endpoint: a challenge comes with status 401 and no other, and reads as the
   Basic scheme with the realm. *)
Theorem C95_token_endpoint : forall J te r tr res,
  only_bundled J te -> printable (te_realm te) -> unescaped (te_realm te) ->
  exec (token_handler J te r) tr res ->
  (In 401%Z (statuses tr) <-> exists v, In (OSetHeader "WWW-Authenticate" v) (ops tr)) /\
  (forall v, In (OSetHeader "WWW-Authenticate" v) (ops tr) -> reads_challenge v "Basic" [("realm", te_realm te)]).
Proof.
  intros J te r tr res HB HP HU H.
  assert (HS : In 401%Z (statuses tr) <-> In (OStatus 401) (http_ops tr)).
  { unfold statuses, http_ops. rewrite filter_In, in_flat_map. split.
    - intros (o & HO & HI). destruct o; try contradiction. destruct HI as [->|[]]. auto.
    - intros [HO _]. exists (OStatus 401). split; [exact HO|left; reflexivity]. }
  assert (HH : forall v, In (OSetHeader "WWW-Authenticate" v) (ops tr) <-> In (OSetHeader "WWW-Authenticate" v) (http_ops tr)).
  { intros v. unfold http_ops. rewrite filter_In. split; [auto|tauto]. }
  setoid_rewrite HH. setoid_rewrite HS. clear HS HH.
  destruct (string_dec (r_method r) "POST") as [HM|HM].
  - pose proof (C03_one_answer J te r tr res HB HM H) as HA. destruct res as [x|].
    + destruct HA as [(rs & HA)|(st & e & (e' & _ & HA) & _)]; rewrite HA.
      * split; [split|]; [intros HI|intros (v & HI)|intros v HI]; cbn in HI;
          repeat (destruct HI as [HI|HI]; [discriminate HI|]); contradiction.
      * destruct (Z.eqb_spec st 401) as [->|HN].
        -- split; [split; intros _; [eexists; left; reflexivity|cbn; auto 10]|]. intros v HI. cbn in HI.
           destruct HI as [HI|HI]; [|repeat (destruct HI as [HI|HI]; [discriminate HI|]); contradiction].
           injection HI as <-. apply basic_reads; assumption.
        -- split; [split|]; [intros HI|intros (v & HI)|intros v HI]; cbn in HI;
             repeat (destruct HI as [HI|HI]; [congruence|]); contradiction.
    + destruct HA as [-> _]. cbn. split; [split|]; [intros HI|intros (v & HI)|intros v HI]; contradiction.
  - destruct (C02_only_post J te r tr res HM H) as (_ & _ & ->).
    split; [split|]; [intros HI|intros (v & HI)|intros v HI]; destruct HI as [HI|[]]; discriminate HI.
Qed.
Print Assumptions C95_token_endpoint.

(* The realm of the token endpoint is put between quotes as it stands: a double quote in
   it makes the challenge unreadable, and a backslash is lost. *)
Lemma broken_off s v c x scheme l : quoted s v -> ~ blank c -> c <> ","%char ->
  ~ reads_challenge ("Basic realm=" ++ String dquote (s ++ String dquote (String c x))) scheme l.
Proof.
  intros HQ HC HN (sp & p & E & HT & HS & HP).
  assert (HBT : token "Basic") by (apply token_b; [discriminate|reflexivity]).
  assert (HRT : token "realm") by (apply token_b; [discriminate|reflexivity]).
  change ("Basic" ++ String " " ("realm" ++ "=" ++ String dquote (s ++ String dquote (String c x))) = scheme ++ String " " (sp ++ p))%string in E.
  apply part_unique in E; [|apply token_space; assumption|apply token_space; assumption]. destruct E as [_ E].
  destruct (params_first _ _ HP) as (a & r & -> & HA).
  assert (HB : forall a, token_char a -> a <> " "%char) by (apply token_char_not; reflexivity).
  change ("" ++ String "r" ("ealm" ++ "=" ++ String dquote (s ++ String dquote (String c x))) = sp ++ String a r)%string in E.
  assert (HR : "r"%char <> " "%char) by discriminate.
  destruct (prefix_unique (fun a => a = " "%char) "" _ _ _ _ _ (fun b (X : False) => match X with end) HS HR (HB _ HA) E) as (_ & <- & E').
  rewrite <- E' in HP. clear E E'.
  change (params ("realm" ++ "=" ++ String dquote (s ++ String dquote (String c x))) l) in HP.
  remember ("realm" ++ "=" ++ String dquote (s ++ String dquote (String c x)))%string as p eqn:EP.
  destruct HP as [n' s' v' HN' HQ'|n' s' v' b1 b2 rest l0 HN' HQ' HB1 HB2 HP'].
  - change (n' ++ String "=" (String dquote (s' ++ String dquote "")) = "realm" ++ String "=" (String dquote (s ++ String dquote (String c x))))%string in EP.
    apply part_unique in EP; [|apply token_eq; assumption|apply token_eq; assumption]. destruct EP as [_ EP]. injection EP as EP.
    destruct (quoted_unique _ _ HQ' _ _ _ _ HQ EP) as (_ & _ & X). discriminate X.
  - change (n' ++ String "=" (String dquote ((s' ++ String dquote "") ++ b1 ++ "," ++ b2 ++ rest)) = "realm" ++ String "=" (String dquote (s ++ String dquote (String c x))))%string in EP.
    apply part_unique in EP; [|apply token_eq; assumption|apply token_eq; assumption]. destruct EP as [_ EP]. injection EP as EP.
    rewrite app_assoc_s in EP. cbn [append] in EP.
    destruct (quoted_unique _ _ HQ' _ _ _ _ HQ EP) as (_ & _ & X).
    destruct b1 as [|d b1]; injection X as X _; [apply HN; symmetry; exact X|].
    apply HC. rewrite <- X. apply HB1. left. reflexivity.
Qed.

Definition with_realm (realm : string) : token_endpoint :=
  TokenEndpoint realm (te_handlers te0) (te_uri te0) (te_accept te0) (te_accept_assertion te0).
Definition no_credentials : request := req [] [] [("grant_type", "password")].
Definition quote_realm : string := "my " ++ in_quotes "realm".
Definition slash_realm : string := "a" ++ String backslash "b".

Theorem C95_realm_refuted :
  exists te tr v, only_bundled demoJ te /\ printable (te_realm te) /\ exec (token_handler demoJ te no_credentials) tr (Done tt) /\
    In (OSetHeader "WWW-Authenticate" v) (ops tr) /\ forall scheme l, ~ reads_challenge v scheme l.
Proof.
  exists (with_realm quote_realm), (run_of (answers1 "") (with_realm quote_realm) no_credentials). eexists.
  split; [apply demo_te_bundled|]. split; [apply printable_b; reflexivity|].
  split; [apply run_of_exec; vm_compute; reflexivity|].
  split; [vm_compute; repeat first [left; reflexivity|right]|]. intros scheme l.
  apply (broken_off "my " "my " "r" ("ealm" ++ String dquote (String dquote ""))); [|intros [E|E]; discriminate|discriminate].
  apply quoted_self; [apply printable_b; reflexivity|]. split; cbn; intuition discriminate.
Qed.
Print Assumptions C95_realm_refuted.

Theorem C95_backslash_refuted :
  exists te tr v, only_bundled demoJ te /\ printable (te_realm te) /\ exec (token_handler demoJ te no_credentials) tr (Done tt) /\
    In (OSetHeader "WWW-Authenticate" v) (ops tr) /\ te_realm te = slash_realm /\ reads_challenge v "Basic" [("realm", "ab")].
Proof.
  exists (with_realm slash_realm), (run_of (answers1 "") (with_realm slash_realm) no_credentials). eexists.
  split; [apply demo_te_bundled|]. split; [apply printable_b; reflexivity|].
  split; [apply run_of_exec; vm_compute; reflexivity|].
  split; [vm_compute; repeat first [left; reflexivity|right]|]. split; [reflexivity|].
  exists "", ("realm=" ++ in_quotes slash_realm)%string. split; [reflexivity|].
  split; [apply token_b; [discriminate|reflexivity]|]. split; [intros a []|].
  apply (params_one "realm"); [apply token_b; [discriminate|reflexivity]|].
  apply quoted_char; [right; split; [vm_compute; discriminate|discriminate]|discriminate|discriminate|].
  apply quoted_pair; [right; split; [vm_compute; discriminate|discriminate]|]. constructor.
Qed.
Print Assumptions C95_backslash_refuted.

(* Beyond printable text the quoting is Go's, not HTTP's: a line feed is read as "n". *)
Theorem C95_control_characters_refuted :
  reads_challenge (oerr_header (OErr EInvalidToken "" "") (String "a" (String "010" "b"))) "Bearer"
    [("realm", "anb"); ("error", "invalid_token")].
Proof.
  exists "", ("realm=" ++ in_quotes (String "a" (String backslash "nb")) ++ "" ++ "," ++ " " ++ "error=" ++ in_quotes "invalid_token")%string.
  split; [reflexivity|]. split; [apply token_b; [discriminate|reflexivity]|]. split; [intros a []|].
  apply (params_more "realm"); [apply token_b; [discriminate|reflexivity]| |intros a []|intros a [<-|[]]; left; reflexivity|].
  - apply quoted_char; [right; split; [vm_compute; discriminate|discriminate]|discriminate|discriminate|].
    apply quoted_pair; [right; split; [vm_compute; discriminate|discriminate]|].
    apply quoted_self; [apply printable_b; reflexivity|]. split; cbn; intuition discriminate.
  - apply (params_one "error"); [apply token_b; [discriminate|reflexivity]|].
    apply quoted_self; [apply printable_b; reflexivity|]. split; cbn; intuition discriminate.
Qed.
Print Assumptions C95_control_characters_refuted.

(* RFC 6750, section 3 allows no double quotes in descriptions; the one for a missing
   scope has them. *)
Theorem C95_description_refuted :
  exists tr r' v l desc a,
    printable_config rp0 api_scopes /\ exec (validate_with_scopes rp0 forged api_scopes) tr (Done (false, r')) /\
    In (OSetHeader "WWW-Authenticate" v) (ops tr) /\ reads_challenge v "Bearer" l /\
    In ("error_description", desc) l /\ In a (list_ascii_of_string desc) /\ ~ description_char a.
Proof.
  exists (trace_of (answers1 "") (validate_with_scopes rp0 forged api_scopes)). do 3 eexists.
  exists ("this endpoint requires " ++ in_quotes "email" ++ " scope, but the access_token was't issued for.")%string, dquote.
  split. { split; [apply printable_b; reflexivity|]. split; [discriminate|].
    intros path scopes s [E|[E|[]]] HS; injection E as <- <-; cbn in HS;
      repeat (destruct HS as [<-|HS]; [apply printable_b; reflexivity|]); contradiction. }
  split; [apply demo_run; vm_compute; reflexivity|].
  split; [vm_compute; repeat first [left; reflexivity|right]|].
  split; [refine (C95_bearer (OErr EInsufficientScope ("this endpoint requires " ++ in_quotes "email" ++ " scope, but the access_token was't issued for.") "") "goidc" _ _ _); apply printable_b; reflexivity|].
  split; [vm_compute; auto|]. split; [vm_compute; tauto|]. intros (_ & H & _). apply H. reflexivity.
Qed.
Print Assumptions C95_description_refuted.

(** Concrete cases: a refusal of each kind of text, and the token endpoint. *)
Example C95_example :
  printable_config rp0 api_scopes /\ NoDup (map fst api_scopes) /\
  exec (validate rp0 forged) (trace_of late (validate rp0 forged)) (Done (false, forged)) /\
  readable_refusal rp0 api_scopes forged (trace_of late (validate rp0 forged)) /\
  reads_challenge (oerr_header (OErr EInvalidRequest (String dquote ", error_uri=x") "") "r") "Bearer"
    [("realm", "r"); ("error", "invalid_request"); ("error_description", String dquote ", error_uri=x")] /\
  only_bundled demoJ te0 /\ unescaped (te_realm te0) /\
  In 401%Z (statuses (run_of (answers1 "") te0 no_credentials)).
Proof.
  assert (HP : printable_config rp0 api_scopes).
  { split; [apply printable_b; reflexivity|]. split; [discriminate|].
    intros path scopes s [E|[E|[]]] HS; injection E as <- <-; cbn in HS;
      repeat (destruct HS as [<-|HS]; [apply printable_b; reflexivity|]); contradiction. }
  assert (HN : NoDup (map fst api_scopes)) by (repeat constructor; simpl; intuition discriminate).
  assert (HE : exec (validate rp0 forged) (trace_of late (validate rp0 forged)) (Done (false, forged)))
    by (apply demo_run; vm_compute; reflexivity).
  split; [exact HP|]. split; [exact HN|]. split; [exact HE|].
  split; [eapply C95_protector; eauto|].
  split; [refine (C95_bearer (OErr EInvalidRequest (String dquote ", error_uri=x") "") "r" _ _ _); apply printable_b; reflexivity|].
  split; [apply demo_te_bundled|]. split; [split; cbn; intuition discriminate|]. vm_compute. auto.
Qed.
