(** * What operators are told: the specification of C93.

    Nothing here models code; the names of methods are those of the interfaces in
    bridge/interface.go. *)
From Verif Require Import Core Spec.

(** The three ways in which a data layer can break down, rather than answer or
    refuse: a method that is not provided, an error of its own, or nothing at all. *)
Inductive breakdown := NotProvided | OwnError | NoAnswer.

Definition err_breakdown (e : option err_type) : option breakdown :=
  match e with
  | None | Some ErrFailed => None
  | Some ErrUnsupported => Some NotProvided
  | Some ErrServerError | Some (ErrOther _) => Some OwnError
  end.

Definition res_breakdown {A} (x : dres A) : option breakdown :=
  match x with
  | (None, None) => Some NoAnswer
  | (_, e) => err_breakdown e
  end.

(** The breakdown, if any, that the answer to a call of the data layer shows. *)
Definition breakdown_of (e : event) : option breakdown :=
  match e with
  | Ev o x =>
      (match o return ans o -> option breakdown with
       | OFindClient _ => res_breakdown
       | OFindSession _ => res_breakdown
       | OFindActiveInfo _ => res_breakdown
       | OFindInfo _ _ => res_breakdown
       | OCreateInfo _ _ _ => res_breakdown
       | OFindByAccess _ => res_breakdown
       | OFindByRefresh _ => res_breakdown
       | OCreateToken _ _ => res_breakdown
       | ORefresh _ _ => res_breakdown
       | OFindUser _ _ => fun x => err_breakdown (snd x)
       | OFindUserBySub _ => fun x => err_breakdown (snd x)
       | OCreateSession _ _ => err_breakdown
       | ODisable _ => err_breakdown
       | ORecord _ _ _ _ => err_breakdown
       | _ => fun _ => None
       end) x
  end.

(** What is to be written about it. *)
Definition report_level (b : breakdown) : log_level :=
  match b with OwnError => LWarn | NotProvided | NoAnswer => LError end.
Definition report_kind (b : breakdown) : log_event :=
  match b with
  | NotProvided => InterfaceUnsupported
  | OwnError => InterfaceServerError
  | NoAnswer => InterfaceError
  end.

(** The methods of bridge.DataInterface and bridge.AuthorizationCallbacks. *)
Definition method_of (o : op) : string :=
  match o with
  | OIssuer => "Issuer"
  | OFindClient _ => "FindClientById"
  | OFindSession _ => "FindAuthSessionByCode"
  | OFindActiveInfo _ => "FindActiveAuthInfoById"
  | OFindInfo _ _ => "FindAuthInfoByUserIdAndClientId"
  | OFindByAccess _ => "FindOAuthTokenByAccessToken"
  | OFindByRefresh _ => "FindOAuthTokenByRefreshToken"
  | OCreateToken _ _ => "CreateOAuthToken"
  | ORefresh _ _ => "RefreshAccessToken"
  | OFindUser _ _ => "FindUserId"
  | OCreateInfo _ _ _ => "CreateOrUpdateAuthInfo"
  | OCreateSession _ _ => "CreateAuthSession"
  | ODisable _ => "DisableSession"
  | OFindUserBySub _ => "FindUserIdBySubject"
  | ORecord _ _ _ _ => "RecordAssertionClaims"
  | OErrorScreen _ => "ShowErrorScreen"
  | OLoginScreen _ => "ShowLoginScreen"
  | OConsentScreen _ _ => "ShowConsentScreen"
  | OChooseLocale _ => "ChooseLocale"
  | OConfirmLogin => "ConfirmLoginSession"
  | OFromLogin => "RequestIsFromLogin"
  | OAuthTime => "GetAuthTime"
  | OLoginUser => "GetLoginUserId"
  | OCreateCode => "CreateAuthorizationCode"
  | OContinue => "Continue"
  | OMatchSubject _ => "LoginUserIsMatchedToSubject"
  | _ => ""
  end.

(** The name the log uses: the method's, but for three methods that the log calls by
    names of their own (see [C93_method_names_refuted]). *)
Definition reported_as (o : op) (m : string) : Prop :=
  match o with
  | ODisable _ => m = "DisableCode"
  | OFindByRefresh _ => m = "FindAccessTokenByRefreshToken"
  | OMatchSubject _ => m = "LoginUserIsMatchedToHint"
  | _ => m = method_of o
  end.

(** [e] is a line about breakdown [b] of a call of [o]. *)
Definition reports (o : op) (b : breakdown) (e : event) : Prop :=
  exists m attrs, ev_op e = OLog (report_level b) (report_kind b) (("method", m) :: attrs) /\ reported_as o m.

(** Every breakdown in the run is reported by the very next step ... *)
Definition breakdowns_reported (tr : list event) : Prop :=
  forall t1 e t2 b, tr = (t1 ++ e :: t2)%list -> breakdown_of e = Some b ->
  exists e' t3, t2 = e' :: t3 /\ reports (ev_op e) b e'.

(** ... and every report is about a breakdown one step before, or about an issuer
    that is not provided. *)
Definition reports_true (tr : list event) : Prop :=
  forall t1 l b attrs u t2, tr = (t1 ++ Ev (OLog l (report_kind b) attrs) u :: t2)%list ->
  exists t0 e, t1 = (t0 ++ [e])%list /\ l = report_level b /\
    (breakdown_of e = Some b \/ b = NotProvided /\ e = Ev OIssuer "").

(** The kinds of the lines at warning level or above, in order. *)
Definition alarm (o : op) : list log_event :=
  match o with
  | OLog (LWarn | LError | LFatal) k _ => [k]
  | _ => []
  end.
Definition alarms (tr : list event) : list log_event := flat_map (fun e => alarm (ev_op e)) tr.

(** The run answers with status [st], right after a line of kind [k] at level [l];
    before that line nothing was sent, after it nothing else is done. *)
Definition answers_after (tr : list event) (st : Z) (l : log_level) (k : log_event) : Prop :=
  exists t1 attrs t2, tr = (t1 ++ Ev (OLog l k attrs) tt :: t2)%list /\
    http_ops t1 = [] /\ Forall (fun e => is_http (ev_op e) = true) t2 /\ statuses t2 = [st].

(** Lines that call for the operator although the client is told of a mistake: a
    client without owner, a code that could not be disabled, and an assertion that was
    issued in the future. *)
Definition odd_alarm (k : log_event) : Prop :=
  k = NoEnabledUserId \/ k = DisableSessionFailed \/ k = AssertionConditionMismatch.
(** Lines that go with an answer of status 500. *)
Definition server_alarm (k : log_event) : Prop :=
  (exists b, k = report_kind b) \/ k = IdTokenGeneration.

(** A callback of the host application that returned an error. *)
Definition callback_error (e : event) : bool :=
  match e with
  | Ev o x =>
      (match o return ans o -> bool with
       | OLoginScreen _ => fun x => match x with None => true | _ => false end
       | OConsentScreen _ _ => fun x => match x with None => true | _ => false end
       | OChooseLocale _ => fun x => match x with None => true | _ => false end
       | OConfirmLogin => fun x => match x with None => true | _ => false end
       | OFromLogin => fun x => match x with None => true | _ => false end
       | OMatchSubject _ => fun x => match x with None => true | _ => false end
       | OAuthTime => fun x => match x with None => true | _ => false end
       | OLoginUser => fun x => match x with None => true | _ => false end
       | OCreateCode => fun x => match x with None => true | _ => false end
       | OContinue => fun x => match x with None => true | _ => false end
       | _ => fun _ => false
       end) x
  end.

Definition is_login_screen (o : op) : bool := match o with OLoginScreen _ => true | _ => false end.

(** The authorization endpoint: every error of a callback, but for those of
    ShowLoginScreen, is reported by the very next step ... *)
Definition callbacks_reported (tr : list event) : Prop :=
  forall t1 e t2, tr = (t1 ++ e :: t2)%list -> callback_error e = true -> is_login_screen (ev_op e) = false ->
  exists m attrs t3, t2 = Ev (OLog LError InterfaceError (("method", m) :: attrs)) tt :: t3 /\
    reported_as (ev_op e) m.

(** ... and every line of this kind follows an error of a callback or a failed lookup
    of the client. *)
Definition callback_reports_true (tr : list event) : Prop :=
  forall t1 l attrs u t2, tr = (t1 ++ Ev (OLog l InterfaceError attrs) u :: t2)%list ->
  exists t0 e, t1 = (t0 ++ [e])%list /\ l = LError /\
    (callback_error e = true \/ exists cid x, e = Ev (OFindClient cid) x /\ breakdown_of e <> None).
