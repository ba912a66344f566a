(** * Proofs about the managers. *)
From Coq Require Import ZArith List Bool Lia ZifyBool ZifyNat Sorted.
From Verif Require Import PyBase Classes Values Codec Manager SpecManager.
Import ListNotations.
Open Scope Z_scope.

(** ** Dictionaries *)
Lemma dict_get_set d k v x : dict_get (dict_set d k v) x = if k =? x then Some v else dict_get d x.
Proof.
  induction d as [|[y w] d IH]; cbn.
  - reflexivity.
  - destruct (y =? k) eqn:E; cbn.
    + apply Z.eqb_eq in E; subst. destruct (k =? x); reflexivity.
    + rewrite IH. destruct (y =? x) eqn:F; [|reflexivity].
      destruct (k =? x) eqn:G; [lia|reflexivity].
Qed.
Lemma dict_set_keys d k v : In k (map fst (dict_set d k v)) /\ forall x, In x (map fst (dict_set d k v)) -> x = k \/ In x (map fst d).
Proof.
  induction d as [|[y w] d [IH1 IH2]]; cbn.
  - split; [auto|]. intros x [->|[]]. auto.
  - destruct (y =? k) eqn:E; cbn.
    + apply Z.eqb_eq in E; subst. split; [auto|]. intros x [->|H]; auto.
    + split; [auto|]. intros x [->|H]; [auto|]. destruct (IH2 x H); auto.
Qed.
Lemma dict_set_nodup d k v : NoDup (map fst d) -> NoDup (map fst (dict_set d k v)).
Proof.
  induction d as [|[y w] d IH]; cbn; intros H.
  - constructor; [intros []|constructor].
  - inversion H; subst. destruct (y =? k) eqn:E; cbn.
    + apply Z.eqb_eq in E; subst. constructor; assumption.
    + constructor; [|auto]. intros I. destruct (dict_set_keys d k v) as [_ K]. destruct (K _ I); [lia|contradiction].
Qed.
Lemma dict_get_none d k : dict_get d k = None <-> ~ In k (map fst d).
Proof.
  induction d as [|[y w] d IH]; cbn; [tauto|].
  destruct (y =? k) eqn:E.
  - split; [discriminate|]. intros H. exfalso. apply H. left. lia.
  - rewrite IH. split; [intros H [A|A]; [lia|tauto]|tauto].
Qed.
Lemma dict_del_incl d k x : In x (map fst (dict_del d k)) -> In x (map fst d).
Proof. induction d as [|[y w] d IH]; cbn; [tauto|]. destruct (y =? k); cbn; tauto. Qed.
Lemma dict_del_nodup d k : NoDup (map fst d) -> NoDup (map fst (dict_del d k)).
Proof.
  induction d as [|[y w] d IH]; cbn; intros H; [constructor|]. inversion H; subst.
  destruct (y =? k); [assumption|]. cbn. constructor; [|auto]. intros I. apply dict_del_incl in I. contradiction.
Qed.
Lemma dict_get_del d k x : NoDup (map fst d) -> dict_get (dict_del d k) x = if k =? x then None else dict_get d x.
Proof.
  induction d as [|[y w] d IH]; cbn; intros H; [destruct (k =? x); reflexivity|]. inversion H as [|? ? N D]; subst.
  destruct (y =? k) eqn:E.
  - apply Z.eqb_eq in E; subst. destruct (k =? x) eqn:F; [|reflexivity]. apply Z.eqb_eq in F; subst. apply dict_get_none; exact N.
  - cbn. rewrite IH by exact D. destruct (y =? x) eqn:F; [|reflexivity]. destruct (k =? x) eqn:G; [lia|reflexivity].
Qed.

(** ** Calls *)

Lemma integer_init_pyint c z w : integer_init c (VPyInt z) = Ok w -> w = VInt c z.
Proof. unfold integer_init. destruct (_ && _); [|discriminate]. intros H; inversion H; reflexivity. Qed.
Ltac inv_bind H := 
  repeat match type of H with
  | bind ?x _ = Ok _ => let E := fresh "E" in destruct x eqn:E; cbn [bind] in H; [|discriminate H]
  end.
Lemma pdu_init_shape c r e i v p : pdu_init c (VPyInt r) e i v = Ok p ->
  exists k e' i' v', p = VSeq c [VInt k r; e'; i'; v'].
Proof.
  unfold pdu_init. destruct (issubclass c CPDU_v2); unfold pdu_v2_init, pdu_v1_init; intros H.
  - destruct (gt_max_bindings i) as [[|]|]; cbn [bind] in H; try discriminate H. cbv iota in H. inv_bind H.
    apply integer_init_pyint in E; subst. inversion H; subst. eauto 6.
  - inv_bind H. apply integer_init_pyint in E; subst. inversion H; subst. eauto 6.
Qed.

(** What making a message does to the manager: at most one id consumed, nothing queued. *)
Definition makes (mk : M message) : Prop :=
  forall m m' r, mk m = (m', r) ->
    outbound m' = outbound m /\ callbacks m' = callbacks m /\
    (nextRequestID m' = nextRequestID m \/ nextRequestID m' = nextRequestID m + 1) /\
    match r with
    | Err _ => True
    | Ok msg => nextRequestID m' = nextRequestID m + 1 /\
                exists c k e i v, m_data msg = VSeq c [VInt k (nextRequestID m); e; i; v]
    end.
Lemma makes_err e : makes (lift (Err e)).
Proof. intros m m' r H. inversion H; subst. auto. Qed.
Lemma makes_lift {A} (r : res A) k : (forall a, r = Ok a -> makes (k a)) -> makes (mbind (lift r) k).
Proof. intros H. destruct r as [a|e]; [exact (H a eq_refl)|]. intros m m' r R. inversion R; subst. auto. Qed.
Lemma message_v1_eq com pdu m : message_v1 com pdu m = (m, Ok (mkMsg CMessage (VInt CInteger 0) (VOct COctetString com) pdu [])).
Proof. reflexivity. Qed.
Lemma message_v2_eq com pdu m : message_v2 com pdu m = (m, Ok (mkMsg CMessage_v2 (VInt CInteger 1) (VOct COctetString com) pdu [])).
Proof. reflexivity. Qed.
Lemma makes_request (c : cls) vbl (fin : val -> M message) :
  (forall pdu m, exists msg, fin pdu m = (m, Ok msg) /\ m_data msg = pdu) ->
  makes (pdu <~ request_pdu c vbl ;; fin pdu).
Proof.
  intros F m m' r H. unfold request_pdu, mbind, assignRequestID, lift in H.
  destruct (pdu_init c _ _ _ vbl) as [p|e] eqn:E.
  - destruct (F p (mkMgr (nextRequestID m + 1) (outbound m) (callbacks m))) as (msg & F1 & F2).
    rewrite F1 in H. injection H as H1 H2. subst m' r. cbn. repeat split; auto.
    apply pdu_init_shape in E as (k & e & i & v & ->). rewrite F2. eauto 6.
  - inversion H; subst. cbn. auto.
Qed.
Lemma fin_v1 com : forall pdu m, exists msg, message_v1 com pdu m = (m, Ok msg) /\ m_data msg = pdu.
Proof. intros. eexists; split; reflexivity. Qed.
Lemma fin_v2 com : forall pdu m, exists msg, message_v2 com pdu m = (m, Ok msg) /\ m_data msg = pdu.
Proof. intros. eexists; split; reflexivity. Qed.
Lemma makes_version c1 c2 vbl ver (fin : val -> M message) :
  (forall pdu m, exists msg, fin pdu m = (m, Ok msg) /\ m_data msg = pdu) ->
  makes (pdu <~ request_pdu_version c1 c2 vbl ver ;; fin pdu).
Proof.
  intros F. unfold request_pdu_version. destruct (ver =? 1); [exact (makes_request c1 vbl fin F)|].
  destruct (ver =? 2); [exact (makes_request c2 vbl fin F)|].
  intros m m' r H. unfold mbind, assignRequestID, lift in H. inversion H; subst. cbn. auto.
Qed.
Lemma makes_get f oid com ver : makes (createGetRequestMessage f oid com ver).
Proof.
  destruct f; cbn [createGetRequestMessage createGetRequestPDU].
  - apply makes_lift. intros. apply makes_request, fin_v1.
  - apply makes_lift. intros. apply makes_request, fin_v2.
  - destruct (ver =? 1); [apply makes_lift; intros; apply makes_version, fin_v1|].
    destruct (ver =? 2); [apply makes_lift; intros; apply makes_version, fin_v2|]. apply makes_err.
Qed.
Lemma makes_getnext f vbl com ver : makes (createGetNextRequestMessage f vbl com ver).
Proof.
  destruct f; cbn [createGetNextRequestMessage createGetNextRequestPDU].
  - apply makes_request, fin_v1.
  - apply makes_err.
  - apply makes_version. intros. destruct (ver =? 1); [apply fin_v1|apply fin_v2].
Qed.
Lemma makes_set oid ty v com ver : makes (createSetRequestMessage oid ty v com ver).
Proof.
  unfold createSetRequestMessage, createSetRequestPDU.
  destruct (ver =? 1); [apply makes_lift; intros; apply makes_version, fin_v1|].
  destruct (ver =? 2); [apply makes_lift; intros; apply makes_version, fin_v2|]. apply makes_err.
Qed.

(** What a request call does. *)
Definition requests (x : M val) (remote : address) (cb : cbval) : Prop :=
  forall m m' r, x m = (m', r) ->
    match r with
    | Err _ => outbound m' = outbound m /\ callbacks m' = callbacks m /\
               (nextRequestID m' = nextRequestID m \/ nextRequestID m' = nextRequestID m + 1)
    | Ok v => exists msg c k e i vbl, v = VInt k (nextRequestID m) /\
                m_data msg = VSeq c [v; e; i; vbl] /\
                m' = mkMgr (nextRequestID m + 1) (outbound m ++ [(Some msg, remote)])
                           (dict_set (callbacks m) (nextRequestID m) cb)
    end.
Lemma requests_of (mk : M message) remote cb : makes mk -> requests (msg <~ mk ;; queue_request msg remote cb) remote cb.
Proof.
  intros H m m' r R. unfold mbind in R. destruct (mk m) as [m1 r1] eqn:E. apply H in E as (O & C & N & S).
  destruct r1 as [msg|e]; [|inversion R; subst; auto].
  destruct S as (N' & c & k & e & i & v & D).
  unfold queue_request, mbind, put, lift in R. rewrite D in R. cbn in R. inversion R; subst. cbn.
  exists msg, c, k, e, i, v. repeat split; auto. rewrite N', O, C. reflexivity.
Qed.
Lemma requests_call f a cb m m' r : request_callback a = Some cb -> do_call f a m = (m', r) ->
  match r with
  | Err _ => outbound m' = outbound m /\ callbacks m' = callbacks m /\
             (nextRequestID m' = nextRequestID m \/ nextRequestID m' = nextRequestID m + 1)
  | Ok v => exists msg remote c k e i vbl, v = RVal (VInt k (nextRequestID m)) /\
              m_data msg = VSeq c [VInt k (nextRequestID m); e; i; vbl] /\
              m' = mkMgr (nextRequestID m + 1) (outbound m ++ [(Some msg, remote)])
                         (dict_set (callbacks m) (nextRequestID m) cb)
  end.
Proof.
  intros Hcb H.
  assert (G : exists x remote, do_call f a = mmap RVal x /\ requests x remote cb).
  { destruct a; cbn in Hcb; inversion Hcb; subst; cbn [do_call].
    - eexists; eexists; split; [reflexivity|]. apply requests_of, makes_get.
    - eexists; eexists; split; [reflexivity|]. apply requests_of, makes_getnext.
    - exists (snmpSet_bindings f varbindlist remote cb community), remote. split; [reflexivity|].
      destruct f; cbn [snmpSet_bindings].
      + assert (K : requests (msg <~ (pdu <~ request_pdu CGetNext varbindlist ;; message_v1 community pdu) ;; queue_request msg remote cb) remote cb).
        { apply requests_of. apply makes_request, fin_v1. }
        intros m0 m1 r0 R. apply (K m0 m1 r0). unfold mbind in R |- *. destruct (request_pdu CGetNext varbindlist m0) as [m2 [p|e]]; exact R.
      + intros m0 m1 r0 R. inversion R; subst. cbn. auto.
      + intros m0 m1 r0 R. inversion R; subst. cbn. auto.
    - exists (snmpSet_typed f oid valtype value remote cb community version), remote. split; [reflexivity|].
      destruct f; cbn [snmpSet_typed]; try (intros m0 m1 r0 R; inversion R; subst; cbn; auto; fail).
      apply requests_of, makes_set. }
  destruct G as (x & remote & Ex & Rx). rewrite Ex in H. unfold mmap in H.
  destruct (x m) as [m1 [v|e]] eqn:X; apply Rx in X; inversion H; subst.
  - destruct X as (msg & c & k & e & i & vbl & -> & D & ->). exists msg, remote, c, k, e, i, vbl. auto.
  - exact X.
Qed.
(** The other calls. *)
Lemma other_call f a m m' r : request_callback a = None -> do_call f a m = (m', r) ->
  callbacks m' = callbacks m /\
  (nextRequestID m' = nextRequestID m \/ nextRequestID m' = nextRequestID m + 1) /\
  (outbound m' = outbound m \/ (r = Ok RNone /\ exists remote pdu com ver om, a = ATrap remote pdu com ver /\ outbound m' = outbound m ++ [(om, remote)])).
Proof.
  intros N H. destruct a; cbn in N; try discriminate N; cbn [do_call] in H.
  - unfold mmap, snmpTrap, mbind in H. destruct f; cbn [createTrapMessage] in H.
    + inversion H; subst. cbn. repeat split; auto. right. split; auto. repeat eexists; reflexivity.
    + inversion H; subst. cbn. repeat split; auto. right. split; auto. repeat eexists; reflexivity.
    + destruct (_ || _); inversion H; subst; cbn; repeat split; auto. right. split; auto. repeat eexists; reflexivity.
  - inversion H; subst. cbn. auto.
  - unfold mmap in H. destruct (createGetRequestMessage f oid community version m) as [m1 r1] eqn:E. apply makes_get in E as (O & C & X & _).
    destruct r1; inversion H; subst; auto.
  - unfold mmap in H. destruct (createGetNextRequestMessage f varbindlist community version m) as [m1 r1] eqn:E. apply makes_getnext in E as (O & C & X & _).
    destruct r1; inversion H; subst; auto.
  - destruct f; try (inversion H; subst; auto; fail).
    unfold mmap in H. destruct (createSetRequestMessage oid valtype value community version m) as [m1 r1] eqn:E. apply makes_set in E as (O & C & X & _).
    destruct r1; inversion H; subst; auto.
Qed.

(** ** Steps *)
Definition resp_frames (stk : list frame) : list Z := flat_map (fun f => match f with FResp id => [id] | _ => [] end) stk.
Definition quiet (e : event) : Prop := match e with EResult _ | EInvokeEmpty _ => True | _ => False end.

Lemma loop_empty_quiet sys m rest lg : exists q stk', loop_empty sys m rest lg = mkState m stk' (lg ++ q) /\ Forall quiet q /\ resp_frames stk' = resp_frames rest.
Proof.
  unfold loop_empty, run_raises. destruct (queueEmpty sys) as [[|n]|].
  - eexists; eexists; split; [reflexivity|]. split; [repeat constructor|reflexivity].
  - eexists; eexists; split; [reflexivity|]. split; [repeat constructor|reflexivity].
  - exists [], (FRun Polling :: rest). rewrite app_nil_r. split; [reflexivity|]. split; [constructor|reflexivity].
Qed.
Lemma poll_returns_quiet sys m r stk lg : exists q stk', poll_returns sys m r stk lg = mkState m stk' (lg ++ q) /\ Forall quiet q /\ resp_frames stk' = resp_frames stk.
Proof.
  assert (U : exists q stk', mkState m stk (lg ++ [EResult r]) = mkState m stk' (lg ++ q) /\ Forall quiet q /\ resp_frames stk' = resp_frames stk).
  { eexists; eexists; split; [reflexivity|]. split; [repeat constructor|reflexivity]. }
  unfold poll_returns. destruct stk as [|[id| | | |p] rest]; auto.
  destruct r as [[]|e].
  - exists [], (FRun Sending :: rest). rewrite app_nil_r. split; [reflexivity|]. split; [constructor|reflexivity].
  - assert (E : exists q stk', run_raises m e rest lg = mkState m stk' (lg ++ q) /\ Forall quiet q /\ resp_frames stk' = resp_frames (FRun p :: rest)).
    { eexists; eexists; split; [reflexivity|]. split; [repeat constructor|reflexivity]. }
    destruct e, (flav sys); auto. exact (loop_empty_quiet sys m rest lg).
Qed.
Lemma receive_returns_quiet sys m r stk lg : exists q stk', receive_returns sys m r stk lg = mkState m stk' (lg ++ q) /\ Forall quiet q /\ resp_frames stk' = resp_frames stk.
Proof.
  assert (U : exists q stk', mkState m stk (lg ++ [EResult r]) = mkState m stk' (lg ++ q) /\ Forall quiet q /\ resp_frames stk' = resp_frames stk).
  { eexists; eexists; split; [reflexivity|]. split; [repeat constructor|reflexivity]. }
  unfold receive_returns. destruct stk as [|[id| | | |p] rest]; auto.
  exact (poll_returns_quiet sys m (asyncore_read r) rest lg).
Qed.

(** When a response callback is called. *)
Lemma response_invoked m pdu id n : response_action m pdu = InvokeResponse id n ->
  exists r, requestID_of pdu = Ok r /\ py_int r = Ok id /\ pending m id (Cb n).
Proof.
  unfold response_action. destruct (requestID_of pdu) as [r|]; [|discriminate]. destruct (py_int r) as [i|] eqn:E; [|discriminate].
  destruct (dict_get (callbacks m) i) as [[|k]|] eqn:G; try discriminate. intros H; inversion H; subst. eauto.
Qed.
Lemma response_not_trap m pdu n : response_action m pdu <> InvokeTrap n.
Proof.
  unfold response_action. destruct (requestID_of pdu) as [r|]; [|discriminate]. destruct (py_int r) as [i|] eqn:E; [|discriminate].
  destruct (dict_get (callbacks m) i) as [[|k]|] eqn:G; discriminate.
Qed.
Lemma trap_not_response sys id n : trap_action sys <> InvokeResponse id n.
Proof. unfold trap_action. destruct (trapCallback sys) as [[|]|]; discriminate. Qed.
Lemma dispatch_cases sys m msg : 
  (exists r, dispatch sys m msg = Done r) \/ 
  (isinstance (m_data msg) CPDU = true /\ dispatch sys m msg = response_action m (m_data msg)) \/
  (isinstance (m_data msg) CTrapPDU = true /\ dispatch sys m msg = trap_action sys).
Proof.
  assert (S : isinstance (m_data msg) CPDU_v2 = true -> isinstance (m_data msg) CPDU = true).
  { unfold isinstance. destruct (class_of (m_data msg)) as [c|]; [|discriminate]. destruct c; vm_compute; congruence. }
  unfold dispatch. destruct (py_eq (m_version msg) (VPyInt 0)) as [is0|e0]; [|eauto].
  destruct (py_eq (m_version msg) (VPyInt 1)) as [is1|e1]; destruct (flav sys), is0; try (destruct is1); eauto;
    try (destruct (isinstance (m_data msg) CPDU) eqn:P; [auto|]; destruct (isinstance (m_data msg) CTrapPDU) eqn:T; eauto);
    destruct (isinstance (m_data msg) CPDU_v2) eqn:V; eauto.
Qed.
Lemma receive_called_effect sys m depth d stk lg : exists new stk',
  receive_called sys m depth d stk lg = mkState m stk' (lg ++ new) /\
  ((Forall quiet new /\ resp_frames stk' = resp_frames stk) \/
   exists msg, message_decode (reg_of (imports sys)) depth (message_class (flav sys)) d = Ok msg /\
     ((exists id n r, new = [EInvoke id n msg] /\ stk' = FResp id :: stk /\ pending m id (Cb n) /\
                      isinstance (m_data msg) CPDU = true /\ requestID_of (m_data msg) = Ok r /\ py_int r = Ok id) \/
      (exists n, new = [EInvokeTrap n msg] /\ stk' = FTrap :: stk /\ trapCallback sys = Some (Cb n) /\
                 isinstance (m_data msg) CTrapPDU = true))).
Proof.
  assert (R : forall r, exists new stk', receive_returns sys m r stk lg = mkState m stk' (lg ++ new) /\ ((Forall quiet new /\ resp_frames stk' = resp_frames stk) \/
   exists msg, message_decode (reg_of (imports sys)) depth (message_class (flav sys)) d = Ok msg /\
     ((exists id n r, new = [EInvoke id n msg] /\ stk' = FResp id :: stk /\ pending m id (Cb n) /\
                      isinstance (m_data msg) CPDU = true /\ requestID_of (m_data msg) = Ok r /\ py_int r = Ok id) \/
      (exists n, new = [EInvokeTrap n msg] /\ stk' = FTrap :: stk /\ trapCallback sys = Some (Cb n) /\
                 isinstance (m_data msg) CTrapPDU = true)))).
  { intros r. destruct (receive_returns_quiet sys m r stk lg) as (q & stk' & E & Q & S). exists q, stk'. split; auto. }
  unfold receive_called, receiveData.
  destruct (message_decode _ _ _ d) as [msg|e] eqn:D; [|apply R].
  destruct (dispatch sys m msg) as [r|id n|n] eqn:A.
  - apply R.
  - exists [EInvoke id n msg], (FResp id :: stk). split; [reflexivity|]. right. exists msg. split; [reflexivity|]. left.
    destruct (dispatch_cases sys m msg) as [[r H]|[[P H]|[P H]]]; rewrite A in H.
    + discriminate.
    + symmetry in H. apply response_invoked in H as (r & H1 & H2 & H3). exists id, n, r. auto 8.
    + symmetry in H. apply trap_not_response in H. contradiction.
  - exists [EInvokeTrap n msg], (FTrap :: stk). split; [reflexivity|]. right. exists msg. split; [reflexivity|]. right.
    destruct (dispatch_cases sys m msg) as [[r H]|[[P H]|[P H]]]; rewrite A in H.
    + discriminate.
    + symmetry in H. apply response_not_trap in H. contradiction.
    + exists n. split; [reflexivity|]. split; [reflexivity|]. split; [|assumption]. unfold trap_action in H.
      destruct (trapCallback sys) as [[|k]|]; inversion H; subst; reflexivity.
Qed.

(** The kinds of steps. *)
Inductive effect (sys : system) : state -> label -> state -> Prop :=
| ef_call a m m' r stk lg : do_call (flav sys) a m = (m', r) ->
    effect sys (mkState m stk lg) (LCall a)
           (mkState m' stk (lg ++ ECall a r :: map (fun p => EPut (fst p) (snd p)) (skipn (length (outbound m)) (outbound m'))))
| ef_quiet m stk lg l stk' q : (forall a, l <> LCall a) -> Forall quiet q -> resp_frames stk' = resp_frames stk ->
    effect sys (mkState m stk lg) l (mkState m stk' (lg ++ q))
| ef_invoke m stk lg l stk' id n msg r depth d : (forall a, l <> LCall a) ->
    message_decode (reg_of (imports sys)) depth (message_class (flav sys)) d = Ok msg ->
    isinstance (m_data msg) CPDU = true -> requestID_of (m_data msg) = Ok r -> py_int r = Ok id ->
    pending m id (Cb n) -> resp_frames stk' = id :: resp_frames stk ->
    (l = LReceive depth d (match l with LReceive _ _ s => s | _ => ([], 0) end) \/
     exists s src, l = LPoll (Datagram depth s src) /\ d = received (trans sys) s) ->
    effect sys (mkState m stk lg) l (mkState m stk' (lg ++ [EInvoke id n msg]))
| ef_trap m stk lg l stk' n msg depth d : (forall a, l <> LCall a) -> trapCallback sys = Some (Cb n) ->
    isinstance (m_data msg) CTrapPDU = true -> resp_frames stk' = resp_frames stk ->
    message_decode (reg_of (imports sys)) depth (message_class (flav sys)) d = Ok msg ->
    (l = LReceive depth d (match l with LReceive _ _ s => s | _ => ([], 0) end) \/
     exists s src, l = LPoll (Datagram depth s src) /\ d = received (trans sys) s) ->
    effect sys (mkState m stk lg) l (mkState m stk' (lg ++ [EInvokeTrap n msg]))
| ef_finish m id rest lg r m' r' stk' q l : (l = LReturn /\ r = Ok tt \/ exists e, l = LRaise e /\ r = Err e) ->
    after_response (flav sys) m id r = (m', r') -> Forall quiet q -> resp_frames stk' = resp_frames rest ->
    effect sys (mkState m (FResp id :: rest) lg) l (mkState m' stk' (lg ++ EFinished id r :: q))
| ef_take m om dst q stk lg s qq stk' sr : outbound m = (om, dst) :: q ->
    (s = [] \/ exists os rr, s = [ESend os dst rr]) -> Forall quiet qq -> sends s = octets_of (om, dst) ->
    resp_frames stk' = resp_frames stk ->
    effect sys (mkState m stk lg) (LSend sr) (mkState (mkMgr (nextRequestID m) q (callbacks m)) stk' (lg ++ ETake om dst :: s ++ qq)).

Lemma receive_effect sys m depth d stk lg l stk0 : (forall a, l <> LCall a) -> resp_frames stk0 = resp_frames stk ->
  (l = LReceive depth d (match l with LReceive _ _ s => s | _ => ([], 0) end) \/
     exists s src, l = LPoll (Datagram depth s src) /\ d = received (trans sys) s) ->
  effect sys (mkState m stk0 lg) l (receive_called sys m depth d stk lg).
Proof.
  intros L S K. destruct (receive_called_effect sys m depth d stk lg) as (new & stk' & E & [[Q R]|(msg & D & [(id & n & r & -> & -> & P & I & R1 & R2)|(n & -> & -> & T & I)])]); rewrite E.
  - apply ef_quiet; auto; congruence.
  - eapply ef_invoke; eauto. rewrite S. reflexivity.
  - eapply ef_trap; eauto.
Qed.
Lemma poll_effect sys m i stk lg : effect sys (mkState m stk lg) (LPoll i) (poll_called sys m i stk lg).
Proof.
  destruct i as [|depth s src|e]; cbn [poll_called].
  - destruct (poll_returns_quiet sys m (Ok tt) stk lg) as (q & stk' & -> & Q & S). apply ef_quiet; auto; discriminate.
  - apply receive_effect; [discriminate|reflexivity|eauto].
  - destruct (poll_returns_quiet sys m (asyncore_read (Err e)) stk lg) as (q & stk' & -> & Q & S). apply ef_quiet; auto; discriminate.
Qed.
Lemma step_effect sys st l st' : step sys st l = Some st' -> effect sys st l st'.
Proof.
  destruct st as [m stk lg]. destruct l as [a|depth d src|i| |r| |e]; cbn [step]; intros H.
  - destruct (user_runs stk); [|discriminate]. destruct (do_call (flav sys) a m) as [m' r] eqn:E. inversion H; subst. apply ef_call; exact E.
  - destruct (user_runs stk); [|discriminate]. injection H as <-. apply receive_effect; [discriminate|reflexivity|left; reflexivity].
  - assert (G : st' = poll_called sys m i stk lg).
    { destruct stk as [|[| | | |[|]] ?]; cbn in H; inversion H; reflexivity. }
    subst. apply poll_effect.
  - destruct (user_runs stk); [|discriminate]. injection H as <-.
    rewrite <- (app_nil_r lg) at 2. apply ef_quiet; [discriminate|constructor|]. destruct (flav sys); reflexivity.
  - assert (G : exists rest, stk = FRun Sending :: rest /\ st' = send_called sys m r rest lg).
    { destruct stk as [|[| | | |[|]] rest]; cbn in H; inversion H; eauto. }
    destruct G as (rest & -> & ->). clear H. unfold send_called.
    destruct (outbound m) as [|[om dst] q] eqn:O.
    + destruct (loop_empty_quiet sys m rest lg) as (qq & stk' & -> & Q & S). apply ef_quiet; auto; discriminate.
    + assert (F : forall e lg0, exists qq stk', (match e with QueueEmpty => loop_empty sys {| nextRequestID := nextRequestID m; outbound := q; callbacks := callbacks m |} rest lg0 | _ => run_raises {| nextRequestID := nextRequestID m; outbound := q; callbacks := callbacks m |} e rest lg0 end) = mkState (mkMgr (nextRequestID m) q (callbacks m)) stk' (lg0 ++ qq) /\ Forall quiet qq /\ resp_frames stk' = resp_frames rest).
      { intros e lg0. assert (X : exists qq stk', run_raises {| nextRequestID := nextRequestID m; outbound := q; callbacks := callbacks m |} e rest lg0 = mkState (mkMgr (nextRequestID m) q (callbacks m)) stk' (lg0 ++ qq) /\ Forall quiet qq /\ resp_frames stk' = resp_frames rest).
        { eexists; eexists; split; [reflexivity|]. split; [repeat constructor|reflexivity]. }
        destruct e; try exact X. apply loop_empty_quiet. }
      destruct om as [msg|].
      * destruct (snd (message_encode msg)) as [os|e] eqn:En.
        -- destruct (sendto (trans sys) r) as [[]|e].
           ++ replace ((lg ++ [ETake (Some msg) dst]) ++ [ESend os dst (Ok tt)]) with (lg ++ ETake (Some msg) dst :: [ESend os dst (Ok tt)] ++ []) by (rewrite <- app_assoc; reflexivity).
              apply ef_take; eauto. unfold octets_of; cbn. cbn in En. rewrite En. reflexivity.
           ++ destruct (F e ((lg ++ [ETake (Some msg) dst]) ++ [ESend os dst (Err e)])) as (qq & stk' & -> & Q & S).
              replace (((lg ++ [ETake (Some msg) dst]) ++ [ESend os dst (Err e)]) ++ qq) with (lg ++ ETake (Some msg) dst :: [ESend os dst (Err e)] ++ qq) by (rewrite <- !app_assoc; reflexivity).
              apply ef_take; eauto. unfold octets_of; cbn. cbn in En. rewrite En. reflexivity.
        -- destruct (F e (lg ++ [ETake (Some msg) dst])) as (qq & stk' & -> & Q & S).
           replace ((lg ++ [ETake (Some msg) dst]) ++ qq) with (lg ++ ETake (Some msg) dst :: [] ++ qq) by (rewrite <- app_assoc; reflexivity).
           apply ef_take; auto. unfold octets_of; cbn. cbn in En. rewrite En. reflexivity.
      * destruct (F AttributeError (lg ++ [ETake None dst])) as (qq & stk' & -> & Q & S).
        replace ((lg ++ [ETake None dst]) ++ qq) with (lg ++ ETake None dst :: [] ++ qq) by (rewrite <- app_assoc; reflexivity).
        apply ef_take; auto.
  - destruct stk as [|[id| | | |p] rest]; try discriminate.
    + destruct (after_response (flav sys) m id (Ok tt)) as [m' r'] eqn:A. injection H as <-.
      destruct (receive_returns_quiet sys m' r' rest (lg ++ [EFinished id (Ok tt)])) as (q & stk' & -> & Q & S).
      rewrite <- app_assoc. cbn. eapply ef_finish; eauto.
    + injection H as <-. destruct (receive_returns_quiet sys m (Ok tt) rest lg) as (q & stk' & -> & Q & S). apply ef_quiet; auto; discriminate.
    + injection H as <-. rewrite <- (app_nil_r lg) at 2. apply ef_quiet; [discriminate|constructor|reflexivity].
  - destruct stk as [|[id| | | |p] rest]; try discriminate.
    + destruct (after_response (flav sys) m id (Err e)) as [m' r'] eqn:A. injection H as <-.
      destruct (receive_returns_quiet sys m' r' rest (lg ++ [EFinished id (Err e)])) as (q & stk' & -> & Q & S).
      rewrite <- app_assoc. cbn. eapply ef_finish; eauto.
    + injection H as <-. destruct (receive_returns_quiet sys m (guard (flav sys) (Err e)) rest lg) as (q & stk' & -> & Q & S). apply ef_quiet; auto; discriminate.
    + destruct rest as [|[| | | |p] rest]; try discriminate. injection H as <-. unfold run_raises.
      apply ef_quiet; [discriminate|repeat constructor|reflexivity].
Qed.

(** ** The invariant *)
Lemma app_split {A} (a b l1 l2 : list A) e : a ++ b = l1 ++ e :: l2 ->
  (exists l2', l2 = l2' ++ b /\ a = l1 ++ e :: l2') \/ (exists l1', l1 = a ++ l1' /\ b = l1' ++ e :: l2).
Proof.
  revert l1. induction a as [|x a IH]; cbn; intros l1 H.
  - right. exists l1. auto.
  - destruct l1 as [|y l1]; cbn in H; inversion H; subst.
    + left. exists a. auto.
    + destruct (IH _ H2) as [(l2' & -> & ->)|(l1' & -> & ->)]; [left|right]; eauto.
Qed.
Lemma issued_app a b : issued (a ++ b) = issued a ++ issued b.
Proof. apply flat_map_app. Qed.
Lemma puts_app a b : puts (a ++ b) = puts a ++ puts b.
Proof. apply flat_map_app. Qed.
Lemma takes_app a b : takes (a ++ b) = takes a ++ takes b.
Proof. apply flat_map_app. Qed.
Lemma sends_app a b : sends (a ++ b) = sends a ++ sends b.
Proof. apply flat_map_app. Qed.
Lemma invocations_app id a b : invocations id (a ++ b) = (invocations id a + invocations id b)%nat.
Proof. unfold invocations. rewrite filter_app, app_length. reflexivity. Qed.
Lemma finishes_app id a b : finishes id (a ++ b) = (finishes id a + finishes id b)%nat.
Proof. unfold finishes. rewrite filter_app, app_length. reflexivity. Qed.
(** Lists of events with no call, put, take, send, invocation or finish. *)
Lemma quiet_nil q : Forall quiet q -> issued q = [] /\ puts q = [] /\ takes q = [] /\ sends q = [] /\
  (forall id, invocations id q = 0%nat /\ finishes id q = 0%nat).
Proof.
  induction 1 as [|e q Q H (A & B & C & D & E)]; [repeat split|].
  destruct e; try contradiction; cbn; repeat split; try assumption; apply E.
Qed.
Lemma quiet_no_split q l1 e l2 : Forall quiet q -> q = l1 ++ e :: l2 -> quiet e.
Proof. intros H ->. apply Forall_app in H as [_ H]. inversion H; assumption. Qed.
(** The events of a call. *)
Lemma put_events l : issued (map (fun p => EPut (fst p) (snd p)) l) = [] /\ puts (map (fun p => EPut (fst p) (snd p)) l) = l /\
  takes (map (fun p => EPut (fst p) (snd p)) l) = [] /\ sends (map (fun p => EPut (fst p) (snd p)) l) = [] /\
  (forall id, invocations id (map (fun p => EPut (fst p) (snd p)) l) = 0%nat /\ finishes id (map (fun p => EPut (fst p) (snd p)) l) = 0%nat).
Proof.
  induction l as [|[om dst] l (A & B & C & D & E)]; [repeat split|]. cbn. repeat split; try assumption; try apply E.
  f_equal. exact B.
Qed.
Lemma skipn_app_same {A} (l q : list A) : skipn (length l) (l ++ q) = q.
Proof. induction l; cbn; auto. Qed.

Lemma carries_intro msg r id : requestID_of (m_data msg) = Ok r -> py_int r = Ok id -> carries msg id.
Proof.
  intros H P. destruct (m_data msg) as [| | | | | | | |c [|x l]] eqn:D; cbn in H; try discriminate H.
  injection H as ->. exists c, r, l. auto.
Qed.
Record inv (st : state) : Prop := mkInv {
  i_next : 0 <= nextRequestID (man st);
  i_range : Forall (fun p => 0 <= fst p < nextRequestID (man st)) (issued (log st));
  i_sorted : StronglySorted Z.lt (map fst (issued (log st)));
  i_nodup : NoDup (map fst (callbacks (man st)));
  i_pend : forall id cb, pending (man st) id cb -> In (id, cb) (issued (log st));
  i_fifo : puts (log st) = takes (log st) ++ outbound (man st);
  i_sent : sends (log st) = flat_map octets_of (takes (log st));
  i_active : forall id, invocations id (log st) = (finishes id (log st) + count_occ Z.eq_dec (resp_frames (stack st)) id)%nat;
  i_frames : forall id, In id (resp_frames (stack st)) -> 0 <= id < nextRequestID (man st);
  i_inv : forall l1 id n msg l2, log st = l1 ++ EInvoke id n msg :: l2 -> In (id, Cb n) (issued l1) /\ carries msg id;
  i_done : forall l1 id l2, log st = l1 ++ EFinished id (Ok tt) :: l2 ->
             invocations id l2 = 0%nat /\ dict_get (callbacks (man st)) id = None /\ 0 <= id < nextRequestID (man st) }.

Lemma inv_init : inv init.
Proof.
  constructor; cbn; try lia; try reflexivity.
  - constructor.
  - constructor.
  - constructor.
  - intros id cb P. discriminate P.
  - intros l1 id n msg l2 H. destruct l1; discriminate.
  - intros l1 id l2 H. destruct l1; discriminate.
Qed.
Lemma pending_range st id cb : inv st -> pending (man st) id cb -> 0 <= id < nextRequestID (man st).
Proof. intros I P. apply (i_pend _ I) in P. pose proof (i_range _ I) as R. rewrite Forall_forall in R. exact (R _ P). Qed.
Lemma sorted_snoc l x : StronglySorted Z.lt l -> Forall (fun y => y < x) l -> StronglySorted Z.lt (l ++ [x]).
Proof.
  induction 1 as [|y l S IH F]; cbn; intros H; [repeat constructor|]. inversion H; subst.
  constructor; [auto|]. apply Forall_app. split; [assumption|]. constructor; [assumption|constructor].
Qed.

(** Adding events that touch none of the books. *)
Lemma inv_quiet m stk lg stk' q : inv (mkState m stk lg) -> Forall quiet q -> resp_frames stk' = resp_frames stk ->
  inv (mkState m stk' (lg ++ q)).
Proof.
  intros I Q S. destruct (quiet_nil q Q) as (A & B & C & D & E). destruct I; cbn [man stack log nextRequestID outbound callbacks] in *.
  split; cbn [man stack log nextRequestID outbound callbacks]; rewrite ?issued_app, ?puts_app, ?takes_app, ?sends_app, ?A, ?B, ?C, ?D, ?app_nil_r, ?S; auto.
  - intros id. destruct (E id) as [E1 E2]. rewrite invocations_app, finishes_app, E1, E2, i_active0. lia.
  - intros l1 id n msg l2 H. apply app_split in H as [(l2' & -> & ->)|(l1' & -> & H)]; [eauto|].
    apply quiet_no_split in H; [destruct H|exact Q].
  - intros l1 id l2 H. apply app_split in H as [(l2' & -> & ->)|(l1' & -> & H)].
    + destruct (i_done0 _ _ _ eq_refl) as (X & Y & Z). split; [|auto]. rewrite invocations_app, X. apply E.
    + apply quiet_no_split in H; [destruct H|exact Q].
Qed.

Lemma inv_call sys a m m' r stk lg : inv (mkState m stk lg) -> do_call (flav sys) a m = (m', r) ->
  inv (mkState m' stk (lg ++ ECall a r :: map (fun p => EPut (fst p) (snd p)) (skipn (length (outbound m)) (outbound m')))).
Proof.
  intros I H.
  (* the effect on the books *)
  assert (G : exists iss q, issued_by (ECall a r) = iss /\ outbound m' = outbound m ++ q /\
     (nextRequestID m' = nextRequestID m \/ nextRequestID m' = nextRequestID m + 1) /\
     ((iss = [] /\ callbacks m' = callbacks m) \/
      exists cb, iss = [(nextRequestID m, cb)] /\ nextRequestID m' = nextRequestID m + 1 /\
                 callbacks m' = dict_set (callbacks m) (nextRequestID m) cb)).
  { destruct (request_callback a) as [cb|] eqn:R.
    - pose proof (requests_call _ _ _ _ _ _ R H) as X. destruct r as [v|e].
      + destruct X as (msg & remote & c & k & e & i & vbl & -> & _ & ->). cbn [issued_by]. rewrite R. cbn.
        exists [(nextRequestID m, cb)], [(Some msg, remote)]. repeat split; auto. right. exists cb. auto.
      + destruct X as (O & C & N). exists [], []. rewrite O, app_nil_r. repeat split; auto.
    - pose proof (other_call _ _ _ _ _ R H) as (C & N & O).
      assert (IB : issued_by (ECall a r) = []). { cbn. destruct r as [[| |]|]; rewrite ?R; reflexivity. }
      destruct O as [O|(_ & remote & pdu & com & ver & om & _ & O)].
      + exists [], []. rewrite O, app_nil_r. repeat split; auto.
      + exists [], [(om, remote)]. repeat split; auto. }
  destruct G as (iss & q & IB & O & N & K). rewrite O, skipn_app_same.
  destruct (put_events q) as (A & B & C & D & E).
  set (new := ECall a r :: map (fun p => EPut (fst p) (snd p)) q).
  assert (A' : issued new = iss). { unfold new, issued. cbn [flat_map]. rewrite IB. unfold issued in A. rewrite A, app_nil_r. reflexivity. }
  assert (B' : puts new = q) by exact B. assert (C' : takes new = []) by exact C. assert (D' : sends new = []) by exact D.
  assert (E' : forall id, invocations id new = 0%nat /\ finishes id new = 0%nat) by exact E.
  assert (Q : forall l1 e l2, new = l1 ++ e :: l2 -> match e with ECall _ _ | EPut _ _ => True | _ => False end).
  { intros l1 e l2 X. assert (Y : In e new) by (rewrite X; apply in_or_app; right; left; reflexivity). destruct Y as [<-|Y]; [exact Logic.I|].
    apply in_map_iff in Y as (p & <- & _). exact Logic.I. }
  clearbody new. clear IB A B C D E.
  pose proof (fun id cb => pending_range _ id cb I) as PR. destruct I; cbn [man stack log nextRequestID outbound callbacks] in *.
  assert (N' : nextRequestID m <= nextRequestID m') by lia.
  split; cbn [man stack log nextRequestID outbound callbacks]; rewrite ?issued_app, ?puts_app, ?takes_app, ?sends_app, ?A', ?B', ?C', ?D', ?app_nil_r; auto.
  - lia.
  - apply Forall_app. split.
    + eapply Forall_impl; [|exact i_range0]. cbn. intros p Hp. lia.
    + destruct K as [[-> _]|(cb & -> & K & _)]; [constructor|]. constructor; [cbn; lia|constructor].
  - destruct K as [[-> _]|(cb & -> & K & _)]; [rewrite app_nil_r; assumption|].
    rewrite map_app. cbn. apply sorted_snoc; [assumption|]. apply Forall_map. eapply Forall_impl; [|exact i_range0]. cbn. intros p Hp. lia.
  - destruct K as [[_ ->]|(cb & _ & _ & ->)]; [assumption|]. apply dict_set_nodup. assumption.
  - intros id cb P. unfold pending in *. cbn in P. apply in_or_app. destruct K as [[-> K]|(cb' & -> & _ & K)]; rewrite K in P.
    + left. auto.
    + rewrite dict_get_set in P. destruct (nextRequestID m =? id) eqn:Z.
      * apply Z.eqb_eq in Z. inversion P; subst. right. left. reflexivity.
      * left. auto.
  - rewrite i_fifo0, O, app_assoc. reflexivity.
  - intros id. destruct (E' id) as [E1 E2]. rewrite invocations_app, finishes_app, E1, E2, i_active0. lia.
  - intros id F. specialize (i_frames0 id F). lia.
  - intros l1 id n msg l2 X. apply app_split in X as [(l2' & -> & ->)|(l1' & -> & X)]; [eauto|]. apply Q in X. destruct X.
  - intros l1 id l2 X. apply app_split in X as [(l2' & -> & ->)|(l1' & -> & X)].
    + destruct (i_done0 _ _ _ eq_refl) as (X & Y & Z). split; [|split; [|lia]].
      * rewrite invocations_app, X. apply E'.
      * destruct K as [[_ ->]|(cb & _ & _ & ->)]; [assumption|]. rewrite dict_get_set.
        destruct (nextRequestID m =? id) eqn:W; [lia|assumption].
    + apply Q in X. destruct X.
Qed.

Lemma inv_step sys st l st' : inv st -> step sys st l = Some st' -> inv st'.
Proof.
  intros I H. apply step_effect in H. destruct H as
    [a m m' r stk lg H|m stk lg l stk' q L Q S|m stk lg l stk' id n msg r depth d L D P R1 R2 PE S KK
    |m stk lg l stk' n msg dpt dt L T P S DT KT|m id rest lg r m' r' stk' q l L A Q S|m om dst q stk lg s qq stk' sr O SS Q SN S].
  - apply (inv_call sys); assumption.
  - eapply inv_quiet; eassumption.
  - pose proof (pending_range _ id _ I PE) as PR. pose proof (i_pend _ I id _ PE) as IP. destruct I; cbn [man stack log nextRequestID outbound callbacks] in *.
    split; cbn [man stack log nextRequestID outbound callbacks]; rewrite ?issued_app, ?puts_app, ?takes_app, ?sends_app, ?app_nil_r, ?S; auto.
    + intros i. rewrite invocations_app, finishes_app, i_active0. cbn. destruct (Z.eq_dec id i) as [->|N].
      * rewrite Z.eqb_refl. cbn. lia.
      * apply Z.eqb_neq in N. rewrite N. cbn. lia.
    + intros i [->|F]; auto.
    + intros l1 i k ms l2 X. apply app_split in X as [(l2' & -> & ->)|(l1' & -> & X)]; [eauto|].
      destruct l1' as [|y l1']; cbn in X; [|destruct l1'; discriminate]. inversion X; subst. rewrite app_nil_r. split; [assumption|]. eapply carries_intro; eassumption.
    + intros l1 i l2 X. apply app_split in X as [(l2' & -> & ->)|(l1' & -> & X)].
      * destruct (i_done0 _ _ _ eq_refl) as (X & Y & Z). split; [|auto]. rewrite invocations_app, X. cbn.
        destruct (id =? i) eqn:W; [|reflexivity]. apply Z.eqb_eq in W. subst. unfold pending in PE. cbn in PE. congruence.
      * destruct l1' as [|y l1']; cbn in X; [discriminate|destruct l1'; discriminate].
  - destruct I; cbn [man stack log nextRequestID outbound callbacks] in *.
    split; cbn [man stack log nextRequestID outbound callbacks]; rewrite ?issued_app, ?puts_app, ?takes_app, ?sends_app, ?app_nil_r, ?S; auto.
    + intros i. rewrite invocations_app, finishes_app, i_active0. cbn. lia.
    + intros l1 i k ms l2 X. apply app_split in X as [(l2' & -> & ->)|(l1' & -> & X)]; [eauto|].
      destruct l1' as [|y l1']; cbn in X; [discriminate|destruct l1'; discriminate].
    + intros l1 i l2 X. apply app_split in X as [(l2' & -> & ->)|(l1' & -> & X)].
      * destruct (i_done0 _ _ _ eq_refl) as (X & Y & Z). split; [|auto]. rewrite invocations_app, X. reflexivity.
      * destruct l1' as [|y l1']; cbn in X; [discriminate|destruct l1'; discriminate].
  - cut (inv (mkState m' rest (lg ++ [EFinished id r]))).
    { intros I'. replace (lg ++ EFinished id r :: q) with ((lg ++ [EFinished id r]) ++ q) by (rewrite <- app_assoc; reflexivity).
      eapply inv_quiet; eassumption. }
    assert (RF : resp_frames (FResp id :: rest) = id :: resp_frames rest) by reflexivity.
    assert (FR : 0 <= id < nextRequestID m) by (apply (i_frames _ I); left; reflexivity).
    assert (G : nextRequestID m' = nextRequestID m /\ outbound m' = outbound m /\ 
                (callbacks m' = callbacks m \/ callbacks m' = dict_del (callbacks m) id) /\ 
                (r = Ok tt -> dict_get (callbacks m') id = None)).
    { pose proof (i_nodup _ I) as ND. cbn in ND. destruct r as [[]|e]; cbn in A.
      - destruct (dict_get (callbacks m) id) eqn:G; inversion A; subst; cbn; repeat split; auto.
        intros _. rewrite dict_get_del by assumption. rewrite Z.eqb_refl. reflexivity.
      - inversion A; subst. repeat split; auto. discriminate. }
    destruct G as (G1 & G2 & G3 & G4).
    assert (G5 : forall k, dict_get (callbacks m) k = None -> dict_get (callbacks m') k = None).
    { intros k K. destruct G3 as [->| ->]; [assumption|]. apply dict_get_none. apply dict_get_none in K. intros X. apply dict_del_incl in X. contradiction. }
    assert (G6 : forall k cb, dict_get (callbacks m') k = Some cb -> dict_get (callbacks m) k = Some cb).
    { intros k cb K. destruct G3 as [G3|G3]; rewrite G3 in K; [assumption|]. rewrite dict_get_del in K by apply (i_nodup _ I). destruct (id =? k); congruence. }
    destruct I; cbn [man stack log nextRequestID outbound callbacks] in *. rewrite RF in i_frames0.
    split; cbn [man stack log nextRequestID outbound callbacks]; rewrite ?issued_app, ?puts_app, ?takes_app, ?sends_app, ?app_nil_r, ?G1, ?G2; auto.
    + destruct G3 as [->| ->]; [assumption|]. apply dict_del_nodup. assumption.
    + intros i cb P. apply i_pend0. unfold pending in *. cbn in *. auto.
    + intros i. rewrite invocations_app, finishes_app, i_active0, RF. cbn -[resp_frames]. destruct (Z.eq_dec id i) as [->|N].
      * rewrite Z.eqb_refl. cbn. lia.
      * apply Z.eqb_neq in N. rewrite N. cbn. lia.
    + intros i F. apply i_frames0. right. exact F.
    + intros l1 i k ms l2 X. apply app_split in X as [(l2' & -> & ->)|(l1' & -> & X)]; [eauto|].
      destruct l1' as [|y l1']; cbn in X; [discriminate|destruct l1'; discriminate].
    + intros l1 i l2 X. apply app_split in X as [(l2' & -> & ->)|(l1' & -> & X)].
      * destruct (i_done0 _ _ _ eq_refl) as (X & Y & Z). split; [|split; [auto|lia]]. rewrite invocations_app, X. reflexivity.
      * destruct l1' as [|y l1']; cbn in X; [|destruct l1'; discriminate]. inversion X; subst. split; [reflexivity|]. split; auto.
  - replace (lg ++ ETake om dst :: s ++ qq) with ((lg ++ ETake om dst :: s) ++ qq) by (rewrite <- app_assoc; reflexivity).
    eapply inv_quiet; [|exact Q|exact S].
    assert (NS : issued (ETake om dst :: s) = [] /\ puts (ETake om dst :: s) = [] /\ takes (ETake om dst :: s) = [(om, dst)] /\
                 forall i, invocations i (ETake om dst :: s) = 0%nat /\ finishes i (ETake om dst :: s) = 0%nat).
    { destruct SS as [->|(os & rr & ->)]; repeat split. }
    destruct NS as (N1 & N2 & N3 & N4). 
    assert (N5 : sends (ETake om dst :: s) = octets_of (om, dst)) by exact SN.
    assert (N6 : forall l1 e l2, ETake om dst :: s = l1 ++ e :: l2 -> match e with ETake _ _ | ESend _ _ _ => True | _ => False end).
    { intros l1 e l2 X. assert (Y : In e (ETake om dst :: s)) by (rewrite X; apply in_or_app; right; left; reflexivity).
      destruct SS as [->|(os & rr & ->)]; cbn in Y; intuition (subst; exact Logic.I). }
    set (new := ETake om dst :: s) in *. clearbody new.
    destruct I; cbn [man stack log nextRequestID outbound callbacks] in *.
    split; cbn [man stack log nextRequestID outbound callbacks]; rewrite ?issued_app, ?puts_app, ?takes_app, ?sends_app, ?N1, ?N2, ?N3, ?N5, ?app_nil_r; auto.
    + rewrite i_fifo0, O, <- app_assoc. reflexivity.
    + rewrite flat_map_app, i_sent0. cbn. rewrite app_nil_r. reflexivity.
    + intros i. destruct (N4 i) as [X1 X2]. rewrite invocations_app, finishes_app, X1, X2, i_active0. lia.
    + intros l1 i k ms l2 X. apply app_split in X as [(l2' & -> & ->)|(l1' & -> & X)]; [eauto|]. apply N6 in X. destruct X.
    + intros l1 i l2 X. apply app_split in X as [(l2' & -> & ->)|(l1' & -> & X)].
      * destruct (i_done0 _ _ _ eq_refl) as (X & Y & Z). split; [|auto]. rewrite invocations_app, X. apply N4.
      * apply N6 in X. destruct X.
Qed.
Lemma inv_steps sys tr : forall st st', inv st -> steps sys st tr = Some st' -> inv st'.
Proof.
  induction tr as [|l tr IH]; cbn; intros st st' I H; [inversion H; subst; assumption|].
  destruct (step sys st l) as [st1|] eqn:E; [|discriminate]. eapply IH; [|exact H]. eapply inv_step; eassumption.
Qed.
Theorem exec_inv sys tr st : exec sys tr = Some st -> inv st.
Proof. apply inv_steps, inv_init. Qed.
