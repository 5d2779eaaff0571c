(** * Vocabulary: refresh tokens that were given out work.

    These definitions model no code of /repo. *)
From Verif Require Import Core World Spec TokenSpec SysSpec.

(** Expiry of refresh tokens as the code computes it, in 64 bits. *)
Definition refresh_live (k : oauthtoken) (now : Z) : Prop :=
  (now <= add64 (ot_refresh_expires k) (ot_created k))%Z.

(** What a data layer promises about the refresh tokens it has on record: asked for
    one, it finds a token of the same authorization with that refresh token; told to
    refresh a token it has on record, it does. *)
Record refreshing_store {S} (W : rworld S) (ok : S -> Prop) (tok : S -> string -> option oauthtoken) : Prop :=
  RefreshingStore {
  rf_found : forall s t k a s', ok s -> tok s t = Some k -> ot_refresh k <> "" ->
    W s (OFindByRefresh (ot_refresh k)) a s' ->
    exists k', a = (Some k', None) /\ ot_auth_id k' = ot_auth_id k /\ tok s (ot_access k') = Some k';
  rf_renewed : forall s i old a s', ok s -> tok s (ot_access old) = Some old ->
    W s (ORefresh i old) a s' -> exists k', a = (Some k', None) }.

(** A data layer whose refresh tokens last: it finds by a refresh token what has that
    refresh token, and refreshing a token that has one gives a token that has one (the
    same or another). *)
Record renewing_store {S} (W : rworld S) (ok : S -> Prop) (tok : S -> string -> option oauthtoken) : Prop :=
  RenewingStore {
  rn_found : forall s t k s', ok s -> W s (OFindByRefresh t) (Some k, None) s' -> ot_refresh k = t;
  rn_again : forall s i old k s', ok s -> tok s (ot_access old) = Some old -> ot_refresh old <> "" ->
    W s (ORefresh i old) (Some k, None) s' -> ot_refresh k <> "" }.
