(** * Vocabulary: histories of the bundled server, and what its administrator said.

    These definitions model no code of /repo. *)
From Verif Require Import Core Utils World Spec TokenSpec TokenEndpoint TestStore TestServer.

(** What can happen to the server: calls of its administrator, and operations of the
    data interface with their answers, by whichever endpoint. *)
Inductive act :=
| NewUser (name pass : string)
| NewClient (owner : Z) (id secret uri : string)
| Allow (id gt : string)
| ClearAuth
| ClearAll
| Step (e : event).

(** The history [h], oldest first, leads from the new store to the server [v]. *)
Inductive lives : list act -> server -> Prop :=
| lv_new : lives [] new_server
| lv_user h v n p : lives h v -> lives (h ++ [NewUser n p]) (create_user n p v)
| lv_client h v o i s u : lives h v -> lives (h ++ [NewClient o i s u]) (create_client o i s u v)
| lv_allow h v i g : lives h v -> lives (h ++ [Allow i g]) (allow i g v)
| lv_clear_auth h v : lives h v -> lives (h ++ [ClearAuth]) (clear_auth_data v)
| lv_clear_all h v : lives h v -> lives (h ++ [ClearAll]) (clear_all v)
| lv_step h n s o a s' : lives h (Server n s) -> sstep false s o a s' -> lives (h ++ [Step (Ev o a)]) (Server n s').

(** What happened since everything was cleared last. *)
Definition since (h l : list act) : Prop :=
  ~ In ClearAll l /\ (h = l \/ exists h0, h = (h0 ++ ClearAll :: l)%list).

Definition is_new_user (a : act) : bool := match a with NewUser _ _ => true | _ => false end.

(** The user [id] with this name and password: users are numbered from 0. *)
Definition user_created (l : list act) (id : Z) (name pass : string) : Prop :=
  exists l1 l2, l = (l1 ++ NewUser name pass :: l2)%list /\ id = Z.of_nat (length (filter is_new_user l1)).

(** The client [id] as it was created last; [later] is what happened since. *)
Definition client_created (l : list act) (id : string) (owner : Z) (secret uri : string) (later : list act) : Prop :=
  exists l1, l = (l1 ++ NewClient owner id secret uri :: later)%list /\
    forall o s u, ~ In (NewClient o id s u) later.

(** What such a client allows. *)
Record behaves (c : client) (id : string) (owner : Z) (secret uri : string) (later : list act) : Prop := Behaves {
  bh_id : c_id c = id;
  bh_owner : c_owner c = owner;
  bh_secret : forall s, c_match_secret c s = true <-> s = secret;
  bh_redirect : forall u, c_can_redirect c u = true <-> u = uri;
  bh_grant : forall g, c_can_grant c g = true <-> In (Allow id g) later;
  bh_flow : forall f, c_can_flow c f = true;
  bh_scope : forall f s, c_can_scope c f s = true;
  bh_assertion : forall alg kid, c_assertion_key c alg kid = Some (KBytes secret);
  bh_consent : c_no_consent c = ForceConsent;
  bh_none : c_none c = NoneForbidden;
  bh_alg : c_alg c = "RS256";
  bh_kid : c_kid c = "my_service_key_id";
  bh_key : c_key c = Some (KRsaPriv 0) }.

(** The request [r] authenticates with the secret [sec] as [id], and may use [gt]. *)
Definition admitted (l : list act) (te : token_endpoint) (r : request) (gt : string) (id : string) (owner : Z) (uri : string) : Prop :=
  exists sec b later, presented te r id sec b /\ client_created l id owner sec uri later /\ In (Allow id gt) later.

(** ** What was issued *)

(** Of the things that [gives] and [ends] are about, [x] is the one that the history [h] left:
    something gave it, and nothing has ended it since. *)
Definition standing {A} (gives : act -> A -> Prop) (ends : act -> Prop) (h : list act) (x : A) : Prop :=
  exists l1 a l2, h = (l1 ++ a :: l2)%list /\ gives a x /\ forall b, In b l2 -> ~ ends b.

(** The code [code] for the authorization with number [id], as it was asked for. *)
Inductive gives_code (code : string) : act -> Z * asession -> Prop :=
| gc_made i x : s_code x = code -> gives_code code (Step (Ev (OCreateSession (Some i) x) None)) (ai_id i, x).
Inductive ends_code (code : string) : act -> Prop :=
| ec_again i x e : s_code x = code -> ends_code code (Step (Ev (OCreateSession i x) e))
| ec_disabled y e : as_code y = code -> ends_code code (Step (Ev (ODisable y) e))
| ec_auth : ends_code code ClearAuth
| ec_all : ends_code code ClearAll.

(** The authorization with number [id]. *)
Inductive gives_info (id : Z) : act -> authinfo -> Prop :=
| gi_made u c s i : ai_id i = id -> gives_info id (Step (Ev (OCreateInfo u c s) (Some i, None))) i.
Inductive ends_info (id : Z) : act -> Prop :=
| ei_again u c s i e : ai_id i = id -> ends_info id (Step (Ev (OCreateInfo u c s) (Some i, e)))
| ei_auth : ends_info id ClearAuth
| ei_all : ends_info id ClearAll.

(** The access token [t]. *)
Inductive gives_token (t : string) : act -> oauthtoken -> Prop :=
| gt_made i b x : ot_access x = t -> gives_token t (Step (Ev (OCreateToken i b) (Some x, None))) x
| gt_renewed i old x : ot_access x = t -> gives_token t (Step (Ev (ORefresh i old) (Some x, None))) x.
Inductive ends_token (t : string) : act -> Prop :=
| et_made i b x e : ot_access x = t -> ends_token t (Step (Ev (OCreateToken i b) (Some x, e)))
| et_renewed i old x e : ot_access x = t -> ends_token t (Step (Ev (ORefresh i old) (Some x, e)))
| et_replaced i old a : ot_access old = t -> ends_token t (Step (Ev (ORefresh i old) a))
| et_auth : ends_token t ClearAuth
| et_all : ends_token t ClearAll.

(** The session found for a code says what was asked for. *)
Record session_of (id : Z) (x : asession) (y : authsession) : Prop := SessionOf {
  so_code : as_code y = s_code x;
  so_auth_id : as_auth_id y = id;
  so_redirect : as_redirect y = s_redirect x;
  so_verifier : as_verifier y = s_verifier x;
  so_nonce : as_nonce y = s_nonce x;
  so_expires : as_expires y = s_expires x;
  so_auth_time : as_auth_time y = s_auth_time x }.
