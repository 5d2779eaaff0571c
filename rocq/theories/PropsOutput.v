(** * What reaches the log and the response headers. *)
From Coq Require Import Lia Permutation.
From Verif Require Import GoStr Codec StrFacts Core Json OAuthError Grants TokenEndpoint ResourceProtector AuthzResponse
  AuthzEndpoint Misc LogLine Hoare
  Spec TokenSpec ResourceSpec AuthzSpec CodecSpec CodecFacts JsonParse JsonFacts WpTac TokenProofs ResourceFacts AuthzMore Demo
  PropsToken PropsResource PropsAuthz.

(** The control bytes (0 to 31) of a text, in order. *)
Definition control_bytes (s : string) : list ascii :=
  filter (fun a => N.ltb (N_of_ascii a) 32) (list_ascii_of_string s).

Lemma cb_app a b : control_bytes (a ++ b) = (control_bytes a ++ control_bytes b)%list.
Proof.
  induction a as [|x a IH]; [reflexivity|]. unfold control_bytes in *. cbn [append list_ascii_of_string filter].
  destruct (N.ltb (N_of_ascii x) 32); rewrite IH; reflexivity.
Qed.
Lemma cb_cons x s : control_bytes (String x s) = (control_bytes (String x "") ++ control_bytes s)%list.
Proof. apply (cb_app (String x "") s). Qed.
Lemma cb_high a s : (128 <= nb a)%N -> control_bytes (String a s) = control_bytes s.
Proof.
  intros H. rewrite cb_cons. unfold control_bytes at 1. cbn [list_ascii_of_string filter]. unfold nb in H.
  replace (N.ltb (N_of_ascii a) 32) with false; [reflexivity|]. symmetry. apply N.ltb_ge. lia.
Qed.
Lemma cb_esc_ascii a : control_bytes (jesc_ascii a) = [].
Proof. bytes a; reflexivity. Qed.

Lemma in_range_high lo hi a : (128 <= lo)%N -> in_range lo hi a = true -> (128 <= nb a)%N.
Proof. unfold in_range. intros H HR. apply andb_prop in HR. destruct HR as [HR _]. apply N.leb_le in HR. lia. Qed.

Lemma cb_jescape s : control_bytes (jescape s) = [].
Proof.
  induction s as [s IH] using str_strong. destruct s as [|a s1]; [reflexivity|].
  assert (IH' : forall t, (String.length t <= String.length s1)%nat -> control_bytes (jescape t) = []).
  { intros t Ht. apply IH. cbn [String.length]. lia. }
  clear IH. cbn [jescape]. destruct (N.ltb (nb a) 128) eqn:EA.
  { rewrite cb_app, cb_esc_ascii, IH'; [reflexivity|lia]. }
  apply N.ltb_ge in EA. destruct s1 as [|b s2]; [reflexivity|].
  assert (HF : control_bytes (ufffd ++ jescape (String b s2)) = []).
  { rewrite cb_app, IH'; [reflexivity|lia]. }
  destruct (utf8_2 a b) eqn:E2.
  { unfold utf8_2 in E2. apply andb_prop in E2. destruct E2 as [_ E2]. unfold is_cont in E2.
    rewrite cb_high, cb_high, IH'; [reflexivity|cbn; lia|eapply in_range_high; [|exact E2]; lia|exact EA]. }
  destruct s2 as [|c s3]; [exact HF|].
  destruct (utf8_3 a b c) eqn:E3.
  { assert (HB : (128 <= nb b)%N /\ (128 <= nb c)%N).
    { clear -E3. apply utf8_3_spec in E3. unfold byte_in, nb in *. lia. }
    rewrite cb_app, IH'; [|cbn; lia]. rewrite app_nil_r. unfold jesc_3.
    destruct (Ascii.eqb a "226" && Ascii.eqb b "128" && Ascii.eqb c "168")%bool; [reflexivity|].
    destruct (Ascii.eqb a "226" && Ascii.eqb b "128" && Ascii.eqb c "169")%bool; [reflexivity|].
    rewrite !cb_high; [reflexivity|apply HB|apply HB|exact EA]. }
  destruct s3 as [|d s4]; [exact HF|].
  destruct (utf8_4 a b c d) eqn:E4; [|exact HF].
  assert (HB : (128 <= nb b)%N /\ (128 <= nb c)%N /\ (128 <= nb d)%N).
  { clear -E4. apply utf8_4_spec in E4. unfold byte_in, nb in *. lia. }
  rewrite !cb_high; try apply HB; [|exact EA]. apply IH'. cbn. lia.
Qed.

Lemma cb_jstring s : control_bytes (jstring s) = [].
Proof. unfold jstring. rewrite cb_cons, cb_app, cb_jescape. reflexivity. Qed.

Lemma cb_attributes (l : kvs) :
  control_bytes (jprint (JSObj (map (fun p => (fst p, JSString (snd p))) l))) = [].
Proof.
  destruct l as [|[k v] l]; [reflexivity|]. cbn [map fst snd jprint].
  rewrite !cb_app, !cb_jstring.
  replace (control_bytes (sep_cons "," (fun p => jstring (fst p) ++ ":" ++ jprint (snd p))
            (map (fun p => (fst p, JSString (snd p))) l))) with (@nil ascii); [reflexivity|].
  induction l as [|[k' v'] l IH]; [reflexivity|]. cbn [map sep_cons fst snd jprint].
  rewrite !cb_app, !cb_jstring. cbn [app]. exact IH.
Qed.

Lemma cb_event ev : control_bytes (event_name ev) = [].
Proof. destruct ev; reflexivity. Qed.

Lemma cb_esc s : control_bytes (String esc s) = esc :: control_bytes s.
Proof. reflexivity. Qed.
Lemma cb_log endpoint label ev params msg :
  control_bytes (endpoint_log endpoint label ev params msg) =
  (control_bytes endpoint ++ esc :: control_bytes label ++ [esc; esc; esc] ++ control_bytes msg ++ [esc; esc])%list.
Proof.
  unfold endpoint_log, light_paint, paint.
  rewrite ?cb_app, ?cb_esc, ?cb_app, ?cb_esc, cb_attributes, cb_event.
  change (control_bytes "[goidc:") with (@nil ascii). change (control_bytes ":") with (@nil ascii).
  change (control_bytes "[1;") with (@nil ascii). change (control_bytes (itoa 34)) with (@nil ascii).
  change (control_bytes (itoa 36)) with (@nil ascii). change (control_bytes (itoa 31)) with (@nil ascii).
  change (control_bytes "m") with (@nil ascii). change (control_bytes "[m") with (@nil ascii).
  change (control_bytes "[") with (@nil ascii). change (control_bytes "] ") with (@nil ascii).
  change (control_bytes " ") with (@nil ascii).
  rewrite ?app_nil_r. cbn [app]. rewrite <- ?app_assoc. reflexivity.
Qed.

(** ** C69 Log lines cannot be forged through attributes. *)

(* Whatever the attributes hold, a printed line has exactly the eight escape
   characters of its four colours and no other control character: no line break. *)
Theorem C69_one_line : forall conf l endpoint label ev params msg line,
  default_log conf l (endpoint_log endpoint label ev params msg) = Some line ->
  control_bytes endpoint = [] -> control_bytes label = [] -> control_bytes msg = [] ->
  control_bytes line = repeat "027"%char 8.
Proof.
  intros conf l endpoint label ev params msg line H H1 H2 H3. unfold default_log in H.
  destruct (conf <=? level_num l)%Z; [|discriminate]. injection H as <-. unfold insert_label.
  rewrite !cb_app, cb_log, H1, H2, H3. destruct l; reflexivity.
Qed.
Print Assumptions C69_one_line.

(* The event and the attributes can be read back from the line. *)
Lemma event_name_inj e e' : event_name e = event_name e' -> e = e'.
Proof. destruct e, e'; intros H; try reflexivity; discriminate H. Qed.

Lemma no_control c s : N.ltb (N_of_ascii c) 32 = true -> control_bytes s = [] -> has_byte c s = false.
Proof.
  intros HC. induction s as [|a s IH]; intros H; [reflexivity|]. unfold control_bytes in H.
  cbn [list_ascii_of_string filter] in H. destruct (N.ltb (N_of_ascii a) 32) eqn:E; [discriminate|].
  cbn [has_byte]. rewrite (IH H). destruct (Ascii.eqb_spec a c) as [->|]; [congruence|].
  destruct (Ascii.eqb_spec c a) as [->|]; [congruence|]. reflexivity.
Qed.

Lemma app_inv_head_s a b c : (a ++ b = a ++ c)%string -> b = c.
Proof. induction a as [|x a IH]; intros H; [exact H|]. injection H as H. auto. Qed.

Definition utf8_pairs (l : kvs) : Prop := Forall (fun p => utf8 (fst p) /\ utf8 (snd p)) l.

Lemma attributes_inj (a b : kvs) : utf8_pairs a -> utf8_pairs b ->
  jprint (JSObj (map (fun p => (fst p, JSString (snd p))) a)) =
  jprint (JSObj (map (fun p => (fst p, JSString (snd p))) b)) -> a = b.
Proof.
  intros HA HB H. apply (f_equal jparse) in H.
  assert (HW : forall l, writable (JSObj (map (fun p : string * string => (fst p, JSString (snd p))) l))).
  { intros l. constructor. apply Forall_forall. intros x Hx. apply in_map_iff in Hx.
    destruct Hx as (p & <- & _). constructor. }
  rewrite !jparse_print in H by apply HW. injection H as H. rewrite !map_map in H. cbn [fst snd repair] in H.
  clear HW. revert b HB H. induction HA as [|[k v] a [H1 H2] HA IH]; intros b HB H.
  - destruct b; [reflexivity|discriminate].
  - destruct HB as [|[k' v'] b [K1 K2] HB]; [discriminate|]. cbn [map fst snd] in H. injection H as H3 H4 H5.
    cbn [fst snd] in *. apply to_valid_fixed in H1, H2, K1, K2. rewrite H1, K1 in H3. rewrite H2, K2 in H4.
    subst. f_equal. apply IH; assumption.
Qed.

Theorem C69_lines_determine_what_is_logged : forall endpoint label msg ev params ev' params',
  utf8_pairs params -> utf8_pairs params' ->
  endpoint_log endpoint label ev params msg = endpoint_log endpoint label ev' params' msg ->
  ev = ev' /\ Permutation params params'.
Proof.
  intros endpoint label msg ev params ev' params' HP HP' H. unfold endpoint_log in H.
  apply app_inv_head_s, app_inv_head_s, app_inv_head_s, app_inv_head_s, app_inv_head_s in H.
  assert (HE : forall e, has_byte esc (event_name e) = false)
    by (intros e; apply no_control; [reflexivity|apply cb_event]).
  assert (HPaint : forall t x, (paint t 36 ++ x)%string = ((String esc "[36m") ++ t ++ String esc ("[m" ++ x))%string).
  { intros t x. unfold paint. change (itoa 36) with "36". cbn [append]. rewrite app_assoc_s. reflexivity. }
  assert (HLight : forall t, light_paint t 31 = ((String esc "[1;31m") ++ t ++ String esc "[m")%string) by reflexivity.
  rewrite !HPaint in H. apply app_inv_head_s in H. apply part_unique in H; [|apply HE|apply HE]. destruct H as [H1 H].
  split; [exact (event_name_inj _ _ H1)|].
  apply app_inv_head_s, app_inv_head_s, app_inv_head_s, app_inv_head_s in H. rewrite !HLight in H.
  apply app_inv_head_s in H.
  apply part_unique in H; [|apply no_control; [reflexivity|apply cb_attributes]..]. destruct H as [H _].
  assert (HS : forall l, utf8_pairs l -> utf8_pairs (kv_sort l)).
  { intros l HL. unfold utf8_pairs in *. rewrite Forall_forall in *. intros x Hx. apply HL.
    apply (Permutation_in _ (kv_sort_perm l)). exact Hx. }
  apply attributes_inj in H; [|apply HS; assumption..].
  rewrite <- (kv_sort_perm params), H. apply kv_sort_perm.
Qed.
Print Assumptions C69_lines_determine_what_is_logged.

(* Level, endpoint, label, event, message and attributes can be read back from a printed
   line whose label and message have no control characters. *)
Inductive written : string -> string -> log_event -> kvs -> string -> string -> Prop :=
| wr_token gt ev ps msg : written "token_endpoint" gt ev ps msg (token_line gt ev ps msg)
| wr_authz r ev ps msg : written "authorization_endpoint" (r_path r) ev ps msg (authz_line r ev ps msg)
| wr_resource r ev ps msg : written "protected_resource" (r_path r) ev ps msg (resource_line r ev ps msg).

Lemma written_log ep lab ev ps msg t : written ep lab ev ps msg t ->
  t = endpoint_log ep lab ev ps msg /\ has_byte ":" ep = false.
Proof. intros [gt|r|r]; split; reflexivity. Qed.

Lemma light_app t n x : (light_paint t n ++ x)%string =
  (String esc ("[1;" ++ itoa n ++ "m") ++ t ++ String esc ("[m" ++ x))%string.
Proof. unfold light_paint. repeat (cbn [append]; rewrite ?app_assoc_s). reflexivity. Qed.
Lemma paint_app t n x : (paint t n ++ x)%string =
  (String esc ("[" ++ itoa n ++ "m") ++ t ++ String esc ("[m" ++ x))%string.
Proof. unfold paint. repeat (cbn [append]; rewrite ?app_assoc_s). reflexivity. Qed.

Theorem C69_lines_read_back : forall conf l ep lab ev ps msg t conf' l' ep' lab' ev' ps' msg' t' line,
  written ep lab ev ps msg t -> written ep' lab' ev' ps' msg' t' ->
  default_log conf l t = Some line -> default_log conf' l' t' = Some line ->
  control_bytes lab = [] -> control_bytes lab' = [] -> control_bytes msg = [] -> control_bytes msg' = [] ->
  utf8_pairs ps -> utf8_pairs ps' ->
  l = l' /\ ep = ep' /\ lab = lab' /\ ev = ev' /\ msg = msg' /\ Permutation ps ps'.
Proof.
  intros conf l ep lab ev ps msg t conf' l' ep' lab' ev' ps' msg' t' line HW HW' HD HD' HL HL' HM HM' HP HP'.
  apply written_log in HW, HW'. destruct HW as [-> HE], HW' as [-> HE'].
  unfold default_log in HD, HD'. destruct (conf <=? level_num l)%Z; [|discriminate].
  destruct (conf' <=? level_num l')%Z; [|discriminate]. injection HD as HD. injection HD' as HD'.
  rewrite <- HD' in HD. clear HD' line.
  assert (HLv : l = l' /\ endpoint_log ep lab ev ps msg = endpoint_log ep' lab' ev' ps' msg').
  { clear -HD. generalize dependent (endpoint_log ep' lab' ev' ps' msg').
    generalize (endpoint_log ep lab ev ps msg). intros a b HD.
    unfold insert_label in HD. destruct l, l'; try discriminate HD; (split; [reflexivity|]);
      apply app_inv_head_s, app_inv_head_s in HD; exact HD. }
  destruct HLv as [HLv H]. split; [exact HLv|]. clear HD HLv.
  apply (no_control esc) in HL, HL'; [|reflexivity..].
  assert (HS : forall m, control_bytes m = [] -> has_byte esc (m ++ " ") = false).
  { intros m Hm. apply no_control; [reflexivity|]. rewrite cb_app, Hm. reflexivity. }
  pose proof (HS _ HM) as HM1. pose proof (HS _ HM') as HM1'.
  assert (HEv : forall e, has_byte esc (event_name e) = false)
    by (intros e; apply no_control; [reflexivity|apply cb_event]).
  unfold endpoint_log in H. apply app_inv_head_s in H.
  apply (part_unique ":") in H; [|assumption..]. destruct H as [-> H]. split; [reflexivity|].
  rewrite !light_app in H. apply app_inv_head_s in H. apply part_unique in H; [|assumption..].
  destruct H as [-> H]. split; [reflexivity|]. apply app_inv_head_s, app_inv_head_s in H.
  rewrite !paint_app in H. apply app_inv_head_s in H. apply part_unique in H; [|apply HEv..].
  destruct H as [H1 H]. split; [exact (event_name_inj _ _ H1)|]. apply app_inv_head_s, app_inv_head_s in H.
  rewrite <- !app_assoc_s in H.
  assert (HLight : forall t, light_paint t 31 = String esc ("[1;31m" ++ t ++ String esc "[m")) by reflexivity.
  rewrite !HLight in H. apply part_unique in H; [|assumption..]. destruct H as [HM2 H].
  split. { clear -HM2. revert msg' HM2. induction msg as [|a m IH]; intros [|b m'] H; try reflexivity.
    - injection H as _ H. destruct m'; discriminate H.
    - injection H as _ H. destruct m; discriminate H.
    - injection H as -> H. f_equal. auto. }
  apply app_inv_head_s in H. apply part_unique in H; [|apply no_control; [reflexivity|apply cb_attributes]..].
  destruct H as [H _].
  assert (HSo : forall l0, utf8_pairs l0 -> utf8_pairs (kv_sort l0)).
  { intros l0 HL0. unfold utf8_pairs in *. rewrite Forall_forall in *. intros x Hx. apply HL0.
    apply (Permutation_in _ (kv_sort_perm l0)). exact Hx. }
  apply attributes_inj in H; [|apply HSo; assumption..].
  rewrite <- (kv_sort_perm ps), H. apply kv_sort_perm.
Qed.
Print Assumptions C69_lines_read_back.

(* The labels of the token endpoint are harmless. *)
Theorem C69_token_endpoint : forall gt conf l ev params msg line,
  In gt ["common"; TypeAuthorizationCode; TypeRefreshToken; TypePassword; TypeClientCredentials; TypeJWT] ->
  default_log conf l (token_line gt ev params msg) = Some line -> control_bytes msg = [] ->
  control_bytes line = repeat "027"%char 8.
Proof.
  intros gt conf l ev params msg line HG H HM. eapply C69_one_line; [exact H|reflexivity| |exact HM].
  repeat (destruct HG as [<-|HG]; [reflexivity|]). contradiction.
Qed.
Print Assumptions C69_token_endpoint.

(* The other two print the (decoded) request path as it is: every control character
   of the path is in the line. *)
Theorem C69_path_refuted : forall r ev params msg conf l line a,
  default_log conf l (authz_line r ev params msg) = Some line \/
  default_log conf l (resource_line r ev params msg) = Some line ->
  In a (control_bytes (r_path r)) -> In a (control_bytes line).
Proof.
  intros r ev params msg conf l line a H HA. unfold default_log in H.
  destruct (conf <=? level_num l)%Z; [|destruct H; discriminate].
  assert (HI : forall ep, In a (control_bytes (insert_label l (endpoint_log ep (r_path r) ev params msg)))).
  { intros ep. unfold insert_label. rewrite !cb_app, cb_log. apply in_or_app. right. apply in_or_app. right.
    apply in_or_app. right. right. apply in_or_app. auto. }
  destruct H as [H|H]; injection H as <-; apply HI.
Qed.
Print Assumptions C69_path_refuted.

Definition newline : ascii := "010".
Example C69_example :
  let r := Request "GET" ("/authorize/" ++ String newline "[goidc:token_endpoint:forged]") [] [] [] in
  (exists line, default_log 0 LDebug (authz_line r MissingParam [("param", String newline "x")] "no client_id") = Some line /\
     In newline (control_bytes line)) /\
  (exists line, default_log 0 LDebug (token_line "common" MissingParam [("param", String newline "x")] "not found") = Some line /\
     ~ In newline (control_bytes line)).
Proof.
  split; eexists; (split; [reflexivity|]).
  - vm_compute. tauto.
  - vm_compute. intros H. repeat (destruct H as [H|H]; [discriminate H|]). contradiction.
Qed.

(** ** C70 Answers cannot be split: headers have no control characters. *)

Definition header_values (o : list op) : list string :=
  flat_map (fun o => match o with OSetHeader _ v => [v] | _ => [] end) o.

Lemma cb_quote s : control_bytes (go_quote s) = [].
Proof.
  unfold go_quote. rewrite cb_cons, cb_app.
  replace (control_bytes (concat_map quote_byte s)) with (@nil ascii); [reflexivity|].
  induction s as [|a s IH]; [reflexivity|]. cbn [concat_map]. rewrite cb_app, <- IH.
  replace (control_bytes (quote_byte a)) with (@nil ascii); [reflexivity|]. bytes a; reflexivity.
Qed.

Lemma cb_join sep l : control_bytes sep = [] -> Forall (fun s => control_bytes s = []) l -> control_bytes (join sep l) = [].
Proof.
  intros HS. induction 1 as [|x l HX HL IH]; [reflexivity|]. destruct l as [|y l]; [exact HX|].
  change (join sep (x :: y :: l)) with (x ++ sep ++ join sep (y :: l)). rewrite !cb_app, HX, HS, IH. reflexivity.
Qed.
Lemma cb_header e realm : control_bytes (oerr_header e realm) = [].
Proof.
  unfold oerr_header. rewrite cb_app, cb_join; [reflexivity|reflexivity|].
  assert (HK : forall k v, control_bytes k = [] -> control_bytes (k ++ go_quote v) = [])
    by (intros k v HKey; rewrite cb_app, HKey, cb_quote; reflexivity).
  rewrite !Forall_app. split; [|split; [|split]].
  - destruct (realm =s? ""); repeat constructor. apply HK. reflexivity.
  - repeat constructor. apply HK. reflexivity.
  - destruct (oe_desc e =s? ""); repeat constructor. apply HK. reflexivity.
  - destruct (oe_uri e =s? ""); repeat constructor. apply HK. reflexivity.
Qed.

(* Bearer challenges, for every error and every realm. *)
Theorem C70_bearer_challenge : forall e realm, control_bytes (oerr_header e realm) = [].
Proof. exact cb_header. Qed.
Print Assumptions C70_bearer_challenge.

Theorem C70_resource_protector : forall rp r m tr res v,
  exec (validate_with_scopes rp r m) tr res -> In v (header_values (ops tr)) -> control_bytes v = [].
Proof.
  intros rp r m tr res v H HV.
  assert (HG : forall ev, In ev tr -> match ev_op ev with OSetHeader _ v => control_bytes v = [] | _ => True end).
  { intros ev HI. apply in_split in HI. destruct HI as (t1 & t2 & ->).
    refine (wp_guard (fun _ o => match o with OSetHeader _ v => control_bytes v = [] | _ => True end)
              (fun _ _ => True) _ _ _ _ _ _ _ H eq_refl).
    clear. unfold validate_with_scopes. apply wp_bind. eapply wp_mono with (Q := fun _ _ => True); [intros h o X; exact X| |].
    - intros h [[ok r']|] _; [|exact I]. unfold unauthorize. repeat (wp_step; try exact I; try apply cb_header).
    - unfold validate, unauthorize, dcheck. repeat (wp_step; try exact I; try apply cb_header). }
  unfold header_values in HV. apply in_flat_map in HV. destruct HV as (o & Ho & HV).
  apply in_map_iff in Ho. destruct Ho as (ev & <- & He). specialize (HG ev He).
  destruct (ev_op ev); try contradiction. destruct HV as [<-|[]]. exact HG.
Qed.
Print Assumptions C70_resource_protector.

(* The token endpoint, if its configured realm has none. *)
Theorem C70_token_endpoint : forall J te r tr res v,
  only_bundled J te -> exec (token_handler J te r) tr res -> control_bytes (te_realm te) = [] ->
  In v (header_values (http_ops tr)) -> control_bytes v = [].
Proof.
  intros J te r tr res v HB H HR HV.
  assert (HC : control_bytes (snd (basic_challenge (te_realm te))) = []).
  { unfold basic_challenge. cbn [snd]. rewrite cb_app, (cb_cons dquote), cb_app, HR. reflexivity. }
  destruct (string_dec (r_method r) "POST") as [HM|HM].
  - pose proof (C03_one_answer J te r tr res HB HM H) as HA. destruct res as [x|].
    + destruct HA as [(rs & HA)|(st & e & (e' & _ & HA) & _)]; rewrite HA in HV; unfold header_values in HV.
      * simpl in HV. repeat (destruct HV as [<-|HV]; [reflexivity|]). contradiction.
      * unfold answer in HV. destruct (Z.eqb st 401); simpl in HV.
        -- destruct HV as [<-|HV].
           ++ exact HC.
           ++ repeat (destruct HV as [<-|HV]; [reflexivity|]). contradiction.
        -- repeat (destruct HV as [<-|HV]; [reflexivity|]). contradiction.
    + destruct HA as [-> _]. contradiction.
  - destruct (C02_only_post J te r tr res HM H) as (_ & _ & HO). rewrite HO in HV. contradiction.
Qed.
Print Assumptions C70_token_endpoint.

(* The authorization endpoint adds to the approved redirect URI only printable
   characters that need no escaping in a URL, whatever the parameters hold. *)
Definition url_safe (s : string) : Prop :=
  Forall (fun a => In a (list_ascii_of_string
    "ABCDEFGHIJKLMNOPQRSTUVWXYZabcdefghijklmnopqrstuvwxyz0123456789-_.~%+=&?#")) (list_ascii_of_string s).

Lemma url_safe_app a b : url_safe a -> url_safe b -> url_safe (a ++ b).
Proof.
  unfold url_safe. intros HA HB. induction a as [|x a IH]; [exact HB|]. inversion HA; subst. constructor; auto.
Qed.
Lemma url_safe_b s : forallb (fun a => existsb (Ascii.eqb a) (list_ascii_of_string
    "ABCDEFGHIJKLMNOPQRSTUVWXYZabcdefghijklmnopqrstuvwxyz0123456789-_.~%+=&?#")) (list_ascii_of_string s) = true -> url_safe s.
Proof.
  intros H. apply Forall_forall. intros a Ha. rewrite forallb_forall in H. specialize (H a Ha).
  apply existsb_exists in H. destruct H as (b & Hb & E). apply Ascii.eqb_eq in E. subst. exact Hb.
Qed.
Lemma url_safe_escape s : url_safe (qescape s).
Proof.
  induction s as [|a s IH]; [constructor|]. rewrite qescape_cons. apply url_safe_app; [|exact IH].
  apply url_safe_b. bytes a; reflexivity.
Qed.

Lemma url_safe_encode m : url_safe (values_encode m).
Proof.
  unfold values_encode. induction (kv_sort m) as [|p l IH]; [constructor|].
  assert (HP : url_safe (enc_pair p)).
  { unfold enc_pair. repeat apply url_safe_app; try apply url_safe_escape. apply url_safe_b. reflexivity. }
  destruct l as [|q l]; [exact HP|]. cbn [map].
  change (join "&" (enc_pair p :: enc_pair q :: map enc_pair l)) with
    (enc_pair p ++ "&" ++ join "&" (enc_pair q :: map enc_pair l)).
  apply url_safe_app; [exact HP|]. apply url_safe_app; [|exact IH].
  apply url_safe_b. reflexivity.
Qed.

Theorem C70_location : forall k uri params, exists rest,
  location k uri params = (uri ++ rest)%string /\ url_safe rest.
Proof.
  intros k uri params. unfold location. eexists. split; [reflexivity|]. apply url_safe_app; [|apply url_safe_encode].
  unfold connector. destruct k; [destruct (url_rawquery uri =s? "")|destruct (url_fragment uri =s? "")|destruct (url_rawquery uri =s? "")];
    apply url_safe_b; reflexivity.
Qed.
Print Assumptions C70_location.

Theorem C70_authorization_endpoint : forall E pol r tr res loc,
  exec (handle_request E pol r) tr res -> In (ORedirect loc) (ops tr) ->
  exists c rest, approved r c tr /\ loc = (form_value r "redirect_uri" ++ rest)%string /\ url_safe rest.
Proof.
  intros E pol r tr res loc H HL.
  assert (HL' : In (ORedirect loc) (http_ops tr)) by (apply filter_In; auto).
  assert (HN : http_ops tr <> []) by (intros HN; rewrite HN in HL'; contradiction).
  destruct (C30_redirects_only_to_the_approved_uri _ _ _ _ _ H HN) as (c & mode & params & HA & (pre & ta & -> & HP & HS)).
  assert (HT : In (ORedirect loc) (http_ops ta)).
  { unfold http_ops, ops in *. rewrite map_app, filter_app, HP in HL'. exact HL'. }
  assert (HX : exists k, loc = location k (form_value r "redirect_uri") params).
  { inversion HS; subst; simpl in HT.
    - repeat (destruct HT as [HT|HT]; [discriminate|]). contradiction.
    - destruct HT as [HT|[]]. injection HT as <-. eauto.
    - destruct HT as [HT|[]]. injection HT as <-. eauto. }
  destruct HX as (k & ->). destruct (C70_location k (form_value r "redirect_uri") params) as (rest & H1 & H2). eauto 6.
Qed.
Print Assumptions C70_authorization_endpoint.

Example C70_example :
  let nasty := String "013" (String newline ("Set-Cookie: x=" ++ dq "1")) in
  oerr_header (OErr EInvalidToken nasty "") "r" =
    "Bearer realm=" ++ dq "r" ++ ", error=" ++ dq "invalid_token" ++ ", error_description=" ++
    dq (String backslash "r" ++ String backslash "nSet-Cookie: x=" ++ String backslash (String dquote ("1" ++ String backslash (String dquote "")))) /\
  (let r := authz_request [("response_type", "bad"); ("state", nasty)] in
   exists st, http_ops (trace_of answers2 (handle r)) = [ORedirect st]).
Proof. split; [vm_compute; reflexivity|]. eexists. vm_compute. reflexivity. Qed.
