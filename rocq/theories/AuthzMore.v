(** * Consequences used by the properties of the authorization endpoint. *)
From Coq Require Import Lia.
From Verif Require Import WpTac Sha Utils Assertion IdToken AuthzResponse AuthzEndpoint TokenSpec AuthzSpec
  UtilsFacts ShaFacts AuthzFacts AuthzDecide AuthzValidate AuthzProofs.

Lemma sent_answered mode uri params pre ta tr :
  tr = (pre ++ ta)%list -> http_ops pre = [] -> sent mode uri params ta -> answered mode uri params tr.
Proof. intros. exists pre, ta. auto. Qed.

(** What a completed run sends. *)
Lemma completed_answer E pol info req tc f : completed E pol info req tc -> rq_flow req = Some f ->
  exists params, answered (rq_mode req) (rq_redirect req) params tc /\
    NoDup (map fst params) /\
    (forall v, In ("state", v) params <-> v = rq_state req /\ v <> "") /\
    ~ In "error" (map fst params) /\
    ((exists v, In ("code", v) params) <-> f_type f <> FImplicit) /\
    ((exists v, In ("access_token", v) params) <-> f_type f <> FAuthorizationCode /\ f_access f = true) /\
    ((exists v, In ("id_token", v) params) <-> f_type f <> FAuthorizationCode /\ f_id f = true).
Proof.
  assert (HS : forall s v, Some v = given s <-> v = s /\ v <> "").
  { intros s v. split.
    - intros H. symmetry in H. apply given_spec in H. destruct H as [-> H]. auto.
    - intros [-> H]. symmetry. apply given_spec. auto. }
  intros HC HF.
  destruct HC as [f' code at_ params ta H1 H2 [HN HH] H4
    |f' clnt tok idt at_ tt_ ti params ta H1 H2 HT HI [HN HH] H4
    |f' clnt tok idt code at_ tt_ ti params ta H1 H2 HT HI [HN HH] H4];
    rewrite HF in H1; injection H1 as <-; exists params; (split; [|split; [exact HN|]]).
  - eapply sent_answered; [reflexivity|reflexivity|exact H4].
  - rewrite H2. split; [|split; [|split; [|split]]].
    + intros v. rewrite HH. simpl. rewrite <- HS. split.
      * intros [H|[H|[]]]; [discriminate|]. injection H as ->. reflexivity.
      * intros ->. auto.
    + intros HE. apply in_map_iff in HE. destruct HE as ([k v] & Hk & HE). simpl in Hk. subst k.
      apply HH in HE. simpl in HE. destruct HE as [H|[H|[]]]; discriminate.
    + split; [discriminate|]. intros _. exists code. apply HH. left. reflexivity.
    + split; [|intros [H _]; congruence]. intros [v H]. apply HH in H. simpl in H. destruct H as [H|[H|[]]]; discriminate.
    + split; [|intros [H _]; congruence]. intros [v H]. apply HH in H. simpl in H. destruct H as [H|[H|[]]]; discriminate.
  - eapply (sent_answered _ _ _ ([Ev (OFindClient (rq_client req)) (clnt, None)] ++ tt_ ++ [Ev OAuthTime (Some at_)] ++ ti)%list);
      [rewrite <- !app_assoc; reflexivity| |exact H4].
    rewrite !http_ops_app. destruct HT; destruct HI; reflexivity.
  - rewrite H2.
    assert (HK : forall k v, In (k, v) params ->
       (k = "state" /\ Some v = given (rq_state req)) \/ (k = "scope" /\ Some v = given (rq_scope req)) \/
       (In k ["access_token"; "token_type"; "rexpires_in"] /\ f_access f = true) \/
       (k = "id_token" /\ f_id f = true)).
    { intros k v H. apply HH in H. simpl in H. destruct H as [H|[H|H]].
      - injection H as <- ->. auto.
      - injection H as <- ->. auto.
      - apply in_app_or in H. destruct H as [H|[H|[]]].
        + destruct HT; simpl in H; [destruct H|].
          right. right. left. destruct H as [H|[H|[H|[]]]]; injection H as <- _; simpl; auto.
        + destruct HI; injection H; [discriminate|]. intros _ <-. auto. }
    split; [|split; [|split; [|split]]].
    + intros v. rewrite <- HS. split.
      * intros H. apply HK in H. destruct H as [[_ H]|[[H _]|[[H _]|[H _]]]]; auto; try discriminate.
        simpl in H. intuition discriminate.
      * intros H. apply HH. left. congruence.
    + intros HE. apply in_map_iff in HE. destruct HE as ([k v] & Hk & HE). simpl in Hk. subst k.
      apply HK in HE. simpl in HE. intuition discriminate.
    + split; [|congruence]. intros [v H]. apply HK in H. simpl in H. intuition discriminate.
    + split.
      * intros [v H]. apply HK in H. split; [discriminate|]. simpl in H. intuition discriminate.
      * intros [_ H]. rewrite H in HT. inversion HT; subst. exists (ot_access t). apply HH.
        right. right. left. reflexivity.
    + split.
      * intros [v H]. apply HK in H. split; [discriminate|]. simpl in H. intuition discriminate.
      * intros [_ H]. rewrite H in HI. inversion HI; subst. exists idt0. apply HH.
        right. right. apply in_or_app. right. apply in_or_app. right. left. reflexivity.
  - eapply (sent_answered _ _ _ (session_stored pol info req code at_ ++
       [Ev (OFindClient (rq_client req)) (clnt, None)] ++ tt_ ++ ti)%list);
      [rewrite <- !app_assoc; reflexivity| |exact H4].
    rewrite !http_ops_app. destruct HT; destruct HI; reflexivity.
  - rewrite H2.
    assert (HK : forall k v, In (k, v) params ->
       (k = "code" /\ v = code) \/
       (k = "state" /\ Some v = given (rq_state req)) \/ (k = "scope" /\ Some v = given (rq_scope req)) \/
       (In k ["access_token"; "token_type"; "expires_in"] /\ f_access f = true) \/
       (k = "id_token" /\ f_id f = true)).
    { intros k v H. apply HH in H. simpl in H. destruct H as [H|[H|[H|H]]].
      - injection H as <- ->. auto.
      - injection H as <- ->. auto.
      - injection H as <- ->. auto.
      - apply in_app_or in H. destruct H as [H|[H|[]]].
        + destruct HT; simpl in H; [destruct H|].
          right. right. right. left. destruct H as [H|[H|[H|[]]]]; injection H as <- _; simpl; auto.
        + destruct HI; injection H; [discriminate|]. intros _ <-. auto 6. }
    split; [|split; [|split; [|split]]].
    + intros v. rewrite <- HS. split.
      * intros H. apply HK in H. destruct H as [[H _]|[[_ H]|[[H _]|[[H _]|[H _]]]]]; auto; try discriminate.
        simpl in H. intuition discriminate.
      * intros H. apply HH. right. left. congruence.
    + intros HE. apply in_map_iff in HE. destruct HE as ([k v] & Hk & HE). simpl in Hk. subst k.
      apply HK in HE. simpl in HE. intuition discriminate.
    + split; [discriminate|]. intros _. exists code. apply HH. left. reflexivity.
    + split.
      * intros [v H]. apply HK in H. split; [discriminate|]. simpl in H. intuition discriminate.
      * intros [_ H]. rewrite H in HT. inversion HT; subst. exists (ot_access t). apply HH.
        right. right. right. left. reflexivity.
    + split.
      * intros [v H]. apply HK in H. split; [discriminate|]. simpl in H. intuition discriminate.
      * intros [_ H]. rewrite H in HI. inversion HI; subst. exists idt0. apply HH.
        right. right. right. apply in_or_app. right. apply in_or_app. right. left. reflexivity.
Qed.

Lemma answered_app mode uri params h t : http_ops h = [] ->
  answered mode uri params t -> answered mode uri params (h ++ t)%list.
Proof.
  intros H (pre & ta & -> & H1 & H2). exists (h ++ pre)%list, ta.
  rewrite app_assoc, http_ops_app, H, H1. auto.
Qed.

Lemma error_screen_quiet r tr : error_screen_only r tr -> http_ops tr = [].
Proof.
  intros (n & H). unfold http_ops.
  assert (HX : forall l, filter is_http l =
     filter is_http (filter (fun o => match o with OLog _ _ _ => false | _ => true end) l)).
  { induction l as [|o l IH]; [reflexivity|]. destruct o; simpl; rewrite <- ?IH; reflexivity. }
  rewrite HX, H. destruct (string_dec _ _); [reflexivity|]. destruct (string_dec _ _); reflexivity.
Qed.

(** Every answer of HandleRequest. *)
Lemma handle_answer E pol r tr res : exec (handle_request E pol r) tr res -> http_ops tr <> [] ->
  exists c mode params,
    approved r c tr /\ answered mode (form_value r "redirect_uri") params tr /\
    (forall f, asks_for r f -> mode_for pol r f mode) /\
    NoDup (map fst params) /\
    (forall v, In ("state", v) params <-> v = form_value r "state" /\ v <> "") /\
    (((exists typ, In ("error", typ) params /\ In typ error_types) /\
      (forall k, In k (map fst params) -> In k ["error"; "error_description"; "state"]))
     \/ (~ In "error" (map fst params) /\
         exists q f, validated pol r c q /\ rq_flow q = Some f /\ asks_for r f /\
         ((exists v, In ("code", v) params) <-> f_type f <> FImplicit) /\
         ((exists v, In ("access_token", v) params) <-> f_type f <> FAuthorizationCode /\ f_access f = true) /\
         ((exists v, In ("id_token", v) params) <-> f_type f <> FAuthorizationCode /\ f_id f = true))).
Proof.
  intros H HN. destruct res as [b|]; [|apply handle_panicked in H; contradiction].
  apply handle_handled in H. destruct H as [H1 H2|c q H1 H2 H3 H4|c mode typ H1 H2 H3|c q f info pre tc H1 H2 H3 H4 H5 H6].
  - apply error_screen_quiet in H1. contradiction.
  - contradiction.
  - destruct H2 as (desc & params & HA & HT & HND & HH).
    exists c, mode, params. split; [auto|]. split; [auto|]. split; [auto|]. split; [auto|]. split.
    + intros v. rewrite HH. simpl. split.
      * intros [H|[H|[H|[]]]]; [discriminate|discriminate|]. injection H as H.
        apply given_spec in H. destruct H as [-> H]. auto.
      * intros [-> H]. right. right. left. f_equal. apply given_spec. auto.
    + left. split.
      * exists typ. split; [apply HH; left; reflexivity|auto].
      * intros k Hk. apply in_map_iff in Hk. destruct Hk as ([k' v] & Hk1 & Hk2). simpl in Hk1. subst k'.
        apply HH in Hk2. simpl in Hk2.
        destruct Hk2 as [H|[H|[H|[]]]]; injection H as <- _; simpl; auto.
  - destruct (completed_answer _ _ _ _ _ f H6 H3) as (params & HA & HND & HS & HE & HC).
    exists c, (rq_mode q), params. split; [auto|].
    assert (HAF : asks_for r f).
    { destruct (v_flow _ _ _ _ H2) as (f' & l & K1 & K2 & K3 & _). rewrite H3 in K1. injection K1 as <-.
      exists l. auto. }
    split.
    { rewrite (v_redirect _ _ _ _ H2) in HA. subst tr. apply answered_app; auto. }
    split.
    { intros f' Hf. rewrite (asks_unique _ _ _ Hf HAF). apply (v_mode _ _ _ _ H2). auto. }
    split; [auto|]. rewrite (v_state _ _ _ _ H2) in HS. split; [auto|]. right. split; [auto|].
    exists q, f. auto.
Qed.

(** What must have happened before something is issued or consent is asked. *)
Lemma handle_issue E pol r tr res t1 o : exec (handle_request E pol r) tr res -> performs tr t1 o ->
  issues o = true ->
  exists c q info, approved r c t1 /\ validated pol r c q /\
    may_issue (e_jwt E) pol c q info t1 /\ issues_for pol q o info t1.
Proof.
  intros H HP HI. pose proof (handle_performs _ _ _ _ _ _ _ H HP) as HG.
  destruct o; try discriminate HI; simpl in HG; try contradiction; exact HG.
Qed.

Lemma handle_consent E pol r tr res t1 c q : exec (handle_request E pol r) tr res ->
  performs tr t1 (OConsentScreen c q) -> approved r c t1 /\ validated pol r c q /\ may_ask c q t1.
Proof. intros H HP. exact (handle_performs _ _ _ _ _ _ _ H HP). Qed.

Lemma approved_unique r c c' h : approved r c h -> approved r c' h -> c = c'.
Proof.
  intros (_ & _ & _ & e & rest & -> & _) (_ & _ & _ & e' & rest' & H & _).
  apply (f_equal (fun l => hd None (map found_client l))) in H. simpl in H. congruence.
Qed.

(** ** Hashes *)

Lemma std_unpadded s : Nat.modulo (String.length s) 3 = 0%nat \/ rfc4648_std s <> rfc4648_url s.
Proof.
  destruct (Nat.modulo (String.length s) 3) as [|[|[|n]]] eqn:E; auto.
  - right. intros H. apply (f_equal String.length) in H. unfold rfc4648_std, rfc4648_url in H.
    rewrite E in H. rewrite length_append, !length_of_list, !map_length in H. simpl in H. lia.
  - right. intros H. apply (f_equal String.length) in H. unfold rfc4648_std, rfc4648_url in H.
    rewrite E in H. rewrite length_append, !length_of_list, !map_length in H. simpl in H. lia.
  - pose proof (Nat.mod_upper_bound (String.length s) 3). lia.
Qed.

Lemma left_half_unique alg t h h' : left_half alg t h -> left_half alg t h' -> rfc4648_std h = rfc4648_std h'.
Proof.
  intros H H'. assert (E : id_hash alg t = Some (rfc4648_std h)) by (apply id_hash_spec; eauto).
  assert (E' : id_hash alg t = Some (rfc4648_std h')) by (apply id_hash_spec; eauto). congruence.
Qed.

Lemma id_claims_hash cs iss aud sub nonce exp at_ iat ah ch :
  id_claims cs iss aud sub nonce exp at_ iat ah ch ->
  (forall v, In ("at_hash", CStr v) cs <-> ah = Some v) /\ (forall v, In ("c_hash", CStr v) cs <-> ch = Some v).
Proof.
  intros [_ H]. split; intros v; rewrite H; split.
  - intros [X|[X|[X|[X|[X|[X|[X|[X|X]]]]]]]]; try (destruct X as [X _]; discriminate).
    + destruct X as (h & X1 & _ & X2). congruence.
    + destruct X as (h & _ & X & _). discriminate.
  - intros ->. do 7 right. left. eauto.
  - intros [X|[X|[X|[X|[X|[X|[X|[X|X]]]]]]]]; try (destruct X as [X _]; discriminate).
    + destruct X as (h & _ & X & _). discriminate.
    + destruct X as (h & X1 & _ & X2). congruence.
  - intros ->. do 8 right. eauto.
Qed.

Lemma nodup_key {B} (l : list (string * B)) k v v' :
  NoDup (map fst l) -> In (k, v) l -> In (k, v') l -> v = v'.
Proof.
  induction l as [|[a b] l IH]; simpl; [tauto|]. intros HN H1 H2. inversion HN; subst.
  destruct H1 as [H1|H1], H2 as [H2|H2]; try congruence.
  - injection H1 as -> ->. exfalso. apply H3. apply in_map_iff. exists (k, v'). auto.
  - injection H2 as -> ->. exfalso. apply H3. apply in_map_iff. exists (k, v). auto.
  - auto.
Qed.

Lemma hash_claim_iff alg (params : kvs) (tok : option string) claim key :
  hash_claim alg tok claim ->
  (forall v, tok = Some v <-> In (key, v) params /\ v <> "") ->
  forall v, claim = Some v <->
    exists t h, In (key, t) params /\ t <> "" /\ left_half alg t h /\ v = rfc4648_std h.
Proof.
  intros HC HT v. destruct tok as [t|]; simpl in HC.
  - destruct HC as (h & H1 & ->). destruct (proj1 (HT t) eq_refl) as [H2 H3]. split.
    + intros H. injection H as <-. eauto 6.
    + intros (t' & h' & H4 & H5 & H6 & ->).
      assert (Some t = Some t') as H7 by (apply HT; auto). injection H7 as <-.
      f_equal. eapply left_half_unique; eauto.
  - subst claim. split; [discriminate|]. intros (t & h & H4 & H5 & _).
    assert (None = Some t) by (apply HT; auto). discriminate.
Qed.

Lemma completed_hashes E pol info req tc f : completed E pol info req tc -> rq_flow req = Some f ->
  f_type f <> FAuthorizationCode -> f_id f = true -> hashes_sent E req f tc.
Proof.
  intros HC HF HT HI.
  destruct HC as [f' code at_ params ta H1 H2 [HN HH] H4
    |f' clnt tok idt at_ tt_ ti params ta H1 H2 HTM HIM [HN HH] H4
    |f' clnt tok idt code at_ tt_ ti params ta H1 H2 HTM HIM [HN HH] H4];
    rewrite HF in H1; injection H1 as <-; [congruence| |];
    rewrite HI in HIM; inversion HIM as [|i c iss now cs ah ch idt' E1 E2 HA HB HCS HSG]; subst;
    destruct (id_claims_hash _ _ _ _ _ _ _ _ _ _ HCS) as [HAH HCH];
    exists params, c, cs, idt'; (split; [|split; [|split; [exact HSG|split; [|split]]]]).
  - eapply (sent_answered _ _ _ ([Ev (OFindClient (rq_client req)) (Some c, None)] ++ tt_ ++ [Ev OAuthTime (Some at_)] ++ [Ev OIssuer iss; Ev ONow now])%list);
      [rewrite <- !app_assoc; reflexivity| |exact H4].
    rewrite !http_ops_app. destruct HTM; reflexivity.
  - apply HH. right. right. apply in_or_app. right. apply in_or_app. right. left. reflexivity.
  - left. reflexivity.
  - intros v. rewrite HAH. eapply hash_claim_iff; [exact HA|]. intros t. rewrite HH.
    inversion HTM; subst; simpl.
    + split; [discriminate|]. intros [[H|[H|[H|[]]]] _]; discriminate.
    + rewrite given_spec. split.
      * intros [-> H]. auto.
      * intros [[H|[H|[H|[H|[H|[H|[]]]]]]] HE]; try discriminate. injection H as ->. auto.
  - intros v. rewrite HCH. simpl in HB. subst ch. split; [discriminate|].
    intros (t & h & H & _). apply HH in H. inversion HTM; subst; simpl in H; intuition discriminate.
  - eapply (sent_answered _ _ _ (session_stored pol (Some i) req code at_ ++
       [Ev (OFindClient (rq_client req)) (Some c, None)] ++ tt_ ++ [Ev OIssuer iss; Ev ONow now])%list);
      [rewrite <- !app_assoc; reflexivity| |exact H4].
    rewrite !http_ops_app. destruct HTM; reflexivity.
  - apply HH. right. right. right. apply in_or_app. right. apply in_or_app. right. left. reflexivity.
  - right. right. right. left. reflexivity.
  - intros v. rewrite HAH. eapply hash_claim_iff; [exact HA|]. intros t. rewrite HH.
    inversion HTM; subst; simpl.
    + split; [discriminate|]. intros [[H|[H|[H|[H|[]]]]] _]; discriminate.
    + rewrite given_spec. split.
      * intros [-> H]. auto 6.
      * intros [[H|[H|[H|[H|[H|[H|[H|[]]]]]]]] HE]; try discriminate. injection H as ->. auto.
  - intros v. rewrite HCH. simpl in HB. destruct HB as (h & HL & ->). split.
    + intros H. injection H as <-. exists code, h. split; [|auto]. apply HH. left. reflexivity.
    + intros (t & h' & H & HL' & ->).
      assert (t = code) as ->.
      { apply HH in H. inversion HTM; subst; simpl in H;
          repeat (destruct H as [H|H]; [try discriminate; injection H as ->; reflexivity|]); destruct H. }
      f_equal. eapply left_half_unique; eauto.
Qed.

(** The parameters beside an access token. *)
Lemma completed_token E pol info req tc f : completed E pol info req tc -> rq_flow req = Some f ->
  f_type f <> FAuthorizationCode -> f_access f = true ->
  exists params t, answered (rq_mode req) (rq_redirect req) params tc /\ NoDup (map fst params) /\
    In (Ev (OCreateToken info false) (Some t, None)) tc /\
    In ("access_token", ot_access t) params /\ In ("token_type", "bearer") params /\
    (f_type f = FHybrid -> In ("expires_in", itoa (ot_access_expires t)) params) /\
    (f_type f = FImplicit -> ~ In "expires_in" (map fst params) /\
                             In ("rexpires_in", itoa (ot_access_expires t)) params).
Proof.
  intros HC HF HT HI.
  destruct HC as [f' code at_ params ta H1 H2 [HN HH] H4
    |f' clnt tok idt at_ tt_ ti params ta H1 H2 HTM HIM [HN HH] H4
    |f' clnt tok idt code at_ tt_ ti params ta H1 H2 HTM HIM [HN HH] H4];
    rewrite HF in H1; injection H1 as <-; [congruence| |];
    rewrite HI in HTM; inversion HTM as [|t]; subst; exists params, t;
    (split; [|split; [auto|split; [|split; [|split; [|split]]]]]); try (apply HH; simpl; auto 10).
  - eapply (sent_answered _ _ _ ([Ev (OFindClient (rq_client req)) (clnt, None)] ++ [Ev (OCreateToken info false) (Some t, None)] ++ [Ev OAuthTime (Some at_)] ++ ti)%list);
      [rewrite <- !app_assoc; reflexivity| |exact H4].
    rewrite !http_ops_app. destruct HIM; reflexivity.
  - right. left. reflexivity.
  - congruence.
  - intros _. split; [|apply HH; simpl; auto 10]. intros HE. apply in_map_iff in HE.
    destruct HE as ([k v] & Hk & HE). simpl in Hk. subst k. apply HH in HE.
    destruct HIM; simpl in HE; intuition discriminate.
  - eapply (sent_answered _ _ _ (session_stored pol info req code at_ ++
       [Ev (OFindClient (rq_client req)) (clnt, None)] ++ [Ev (OCreateToken info false) (Some t, None)] ++ ti)%list);
      [rewrite <- !app_assoc; reflexivity| |exact H4].
    rewrite !http_ops_app. destruct HIM; reflexivity.
  - do 4 right. left. reflexivity.
  - intros _. apply HH. simpl. auto 10.
  - congruence.
Qed.

Lemma in_performs o tr : In o (ops tr) -> exists t1, performs tr t1 o.
Proof.
  intros H. apply in_map_iff in H. destruct H as ([o' a] & H1 & H2). simpl in H1. subst o'.
  apply in_split in H2. destruct H2 as (t1 & t2 & ->). exists t1, a, t2. reflexivity.
Qed.

Lemma performs_approved r c tr t1 o : performs tr t1 o -> approved r c t1 -> approved r c tr.
Proof. intros (a & t2 & ->) H. apply approved_app. exact H. Qed.

Lemma sessions_app a b : sessions (a ++ b) = (sessions a ++ sessions b)%list.
Proof. unfold sessions, ops. rewrite map_app, flat_map_app. reflexivity. Qed.

Lemma completed_sessions E pol info req tc f : completed E pol info req tc -> rq_flow req = Some f ->
  (f_type f = FImplicit -> sessions tc = []) /\
  (f_type f <> FImplicit -> exists code at_ params pre ta,
     In (Ev OCreateCode (Some code)) pre /\ In (Ev OAuthTime (Some at_)) pre /\
     sessions pre = [(info, ASession (rq_redirect req) code (p_session_expires pol) (rq_verifier req)
                              (rq_nonce req) at_)] /\
     tc = (pre ++ ta)%list /\ sessions ta = [] /\ http_ops pre = [] /\
     sent (rq_mode req) (rq_redirect req) params ta /\ In ("code", code) params).
Proof.
  intros HC HF.
  assert (HS : forall m u p ta, sent m u p ta -> sessions ta = []) by (intros m u p ta []; reflexivity).
  destruct HC as [f' code at_ params ta H1 H2 [HN HH] H4
    |f' clnt tok idt at_ tt_ ti params ta H1 H2 HTM HIM [HN HH] H4
    |f' clnt tok idt code at_ tt_ ti params ta H1 H2 HTM HIM [HN HH] H4];
    rewrite HF in H1; injection H1 as <-; (split; [try congruence|try congruence]).
  - intros _. exists code, at_, params, (session_stored pol info req code at_), ta.
    split; [left; reflexivity|]. split; [right; left; reflexivity|]. split; [reflexivity|].
    split; [reflexivity|]. split; [eapply HS; eauto|]. split; [reflexivity|]. split; [auto|].
    apply HH. left. reflexivity.
  - intros _. rewrite !sessions_app, (HS _ _ _ _ H4). destruct HTM; destruct HIM; reflexivity.
  - intros _. exists code, at_, params, (session_stored pol info req code at_ ++
       [Ev (OFindClient (rq_client req)) (clnt, None)] ++ tt_ ++ ti)%list, ta.
    split; [left; reflexivity|]. split; [right; left; reflexivity|].
    split; [rewrite !sessions_app; destruct HTM; destruct HIM; reflexivity|].
    split; [rewrite <- !app_assoc; reflexivity|]. split; [eapply HS; eauto|].
    split; [rewrite !http_ops_app; destruct HTM; destruct HIM; reflexivity|]. split; [auto|].
    apply HH. left. reflexivity.
Qed.
