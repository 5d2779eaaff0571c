(** * Property theorems about reading stored requests: C90.  The specification is
    DecodeSpec.v (with JsonSpec.v for JSON itself). *)
From Verif Require Import GoStr Codec Core AuthzEndpoint Json JsonParse JsonSpec JsonTree DecodeSpec DecodeFacts Misc CodecFacts TreePrint.
Local Open Scope string_scope.

(** ** C90 What DecodeRequest makes of a string. *)

(* Every string is read as exactly one request. *)
Theorem C90_decodes : forall s q, decode_request s = q <-> request_in s q.
Proof. intros s q. symmetry. apply decode_request_iff. Qed.
Print Assumptions C90_decodes.

(* The last member of a name counts, whatever came before it. *)
Theorem C90_last_state_wins : forall s data l key raw x,
  base64url (without_breaks s) data -> go_text data (RObj (l ++ [(key, RStr raw x)])) ->
  ~ Exists bad_flow l -> named "state" key -> rq_state (decode_request s) = x.
Proof.
  intros s data l key raw x HB HJ HN HK.
  apply bytes_iff in HB. subst data. destruct (decode_object _ _ HJ) as (l1 & HC & HF & _).
  assert (EL : l1 = (l ++ [(key, RStr raw x)])%list).
  { eapply considered_unique; [exact HC|]. apply co_all. rewrite Exists_app. intros [H|H]; [exact (HN H)|].
    inversion H as [? ? [_ (m & Y & _)]|? ? X]; subst; [discriminate Y|inversion X]. }
  subst l1. rewrite Forall_forall in HF. specialize (HF ("state", rq_state (decode_request s))). cbn [fst snd] in HF.
  refine (has_value_unique _ _ _ _ _ _ a_string_fun (HF _) _); [cbn [In]; tauto|].
  left. exists l, key, (RStr raw x), []. split; [reflexivity|]. split; [exact HK|]. split; [exists raw; reflexivity|]. intros ? ? [].
Qed.
Print Assumptions C90_last_state_wins.

(* What is no encoded JSON object is read as the empty request. *)
Theorem C90_garbage : forall s data, base64url (without_breaks s) data ->
  (forall l, ~ go_text data (RObj l)) -> decode_request s = empty_request.
Proof. intros s data HB H. apply decode_request_iff. exists data. split; [exact HB|right; auto]. Qed.
Print Assumptions C90_garbage.

(* So a caller cannot tell a string that is none from an encoded empty request. *)
Theorem C90_errors_are_reported_refuted :
  exists s q, (forall data l, base64url (without_breaks s) data -> ~ go_text data (RObj l)) /\
    request_encode q <> s /\ decode_request s = decode_request (request_encode q).
Proof.
  exists "%", empty_request. split; [|split; vm_compute; [discriminate|reflexivity]].
  intros data l HB HJ. apply bytes_iff in HB. subst data. change (b64_bytes B64Url "%") with "" in HJ.
  destruct (TreeRead.tree_text_iff "" (tree_of (RObj l))) as [_ H].
  assert (X : tree_of_text "" = Some (tree_of (RObj l))) by (apply H; exists (RObj l); split; [exact HJ|apply looks_tree]).
  discriminate X.
Qed.
Print Assumptions C90_errors_are_reported_refuted.

(* Duplicates, names in other cases, members of other types and names, escapes. *)
Definition quotes (s : string) : string :=
  string_of_list_ascii (map (fun a => if Ascii.eqb a "'" then dquote else a) (list_ascii_of_string s)).
Definition stored (doc : string) : string := b64_encode B64Url (quotes doc).
Example C90_example :
  decode_request (stored " {'state':'a', 'STATE' : 'b','state':7,'state':null, 'x':[{'state':'c'}], 'max_age':1e2, 'Max_Age':-5 ,'scop\u0065':'o\u0070'}")
  = ARequest None "" "op" "" "" "b" "" "" "" "" (-5) "" "" "" /\
  decode_request (stored "{'flow':{'type':'hybrid','require_id_token':true},'flow':{'require_access_token':true},'nonce':'n'}")
  = ARequest (Some (Flow FHybrid true true)) "" "" "" "" "" "" "n" "" "" 0 "" "" "" /\
  decode_request (stored "{'client_id':'c','flow':{'require_id_token':true,'type':'hybri\u0064','require_access_token':true},'nonce':'n'}")
  = ARequest (Some (Flow FAuthorizationCode false true)) "c" "" "" "" "" "" "" "" "" 0 "" "" "" /\
  decode_request (stored "{'client_id':'c','flow':{'type':'hybrid'},'flow':null}")
  = ARequest None "c" "" "" "" "" "" "" "" "" 0 "" "" "" /\
  decode_request (stored "{'client_id':'c'},") = empty_request /\
  decode_request (stored "['client_id']") = empty_request /\
  decode_request (stored "{'client_id':'c' }" ++ "!") = ARequest None "c" "" "" "" "" "" "" "" "" 0 "" "" "" /\
  decode_request "!" = empty_request.
Proof. repeat split; vm_compute; reflexivity. Qed.

(* The hypotheses of C90_last_state_wins can be met. *)
Example C90_last_state_example : exists s data l key raw x,
  base64url (without_breaks s) data /\ go_text data (RObj (l ++ [(key, RStr raw x)])) /\
  ~ Exists bad_flow l /\ named "state" key /\ l <> [] /\ rq_state (decode_request s) = "b".
Proof.
  exists (stored "{'state':'a','State':'b'}"), (quotes "{'state':'a','State':'b'}"), [("state", RStr "a" "a")], "State", "b", "b".
  split; [apply bytes_iff; vm_compute; reflexivity|]. split; [|split; [|split; [|split; [discriminate|vm_compute; reflexivity]]]].
  - destruct (TreeRead.tree_text_iff (quotes "{'state':'a','State':'b'}") (TObj [("state", TStr "a" "a"); ("State", TStr "b" "b")])) as [H _].
    destruct H as (x & HX & HL); [vm_compute; reflexivity|].
    apply looks_object in HL. destruct HL as (m & -> & HM).
    assert (E : m = ([("state", RStr "a" "a")] ++ [("State", RStr "b" "b")])%list); [|rewrite <- E; exact HX].
    inversion HM as [|[k1 v1] ? r1 ? [E1 L1] HM1]; subst. inversion HM1 as [|[k2 v2] ? r2 ? [E2 L2] HM2]; subst. inversion HM2; subst.
    cbn [fst snd] in *. subst k1 k2. inversion L1; subst. inversion L2; subst. reflexivity.
  - intros H. inversion H as [? ? [X _]|? ? X]; subst; [|inversion X]. cbn [fst] in X.
    inversion X as [|? ? ? ? [Y|[Y|Y]]| |]; subst; [discriminate Y|destruct Y as [_ Y]; discriminate Y|destruct Y as [_ Y]; discriminate Y].
  - assert (HR : forall k, named k k) by (induction k; constructor; [left; reflexivity|assumption]).
    apply nm_char; [right; right; split; [split; discriminate|reflexivity]|apply HR].
Qed.
