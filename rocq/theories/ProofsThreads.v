From Coq Require Import ZArith List Bool Lia Permutation.
From Verif Require Import PyBase Classes Values Codec Manager Threads SpecManager SpecThreads ProofsManager ProofsHistory.
Import ListNotations.
Open Scope Z_scope.

(** ** A call without interference is the sequential call. *)
Fixpoint run {A} (p : prog A) : M A :=
  match p with
  | PRet r => lift r
  | PLoad k | PAgain k => fun m => run (k (nextRequestID m)) m
  | PStore n k => fun m => run k (mkMgr n (outbound m) (callbacks m))
  | PPut om dst k => fun m => run k (mkMgr (nextRequestID m) (outbound m ++ [(om, dst)]) (callbacks m))
  | PSet id cb k => fun m => run k (mkMgr (nextRequestID m) (outbound m) (dict_set (callbacks m) id cb))
  end.
Lemma run_bind {A B} (x : prog A) (f : A -> prog B) : forall m, run (pbind x f) m = mbind (run x) (fun a => run (f a)) m.
Proof.
  induction x as [[a|e]|k IH|k IH|n k IH|om dst k IH|id cb k IH]; intros m; cbn [pbind run]; try reflexivity;
    try (rewrite IH; reflexivity).
Qed.
Lemma mbind_ext {A B} (x y : M A) (f g : A -> M B) m : (forall m, x m = y m) -> (forall a m, f a m = g a m) -> mbind x f m = mbind y g m.
Proof. intros H G. unfold mbind. rewrite H. destruct (y m) as [m' [a|e]]; auto. Qed.
Lemma run_assign m : run passignRequestID m = assignRequestID m.
Proof. reflexivity. Qed.
Lemma run_map {A B} (g : A -> B) x m : run (pmap g x) m = mmap g (run x) m.
Proof. unfold pmap. rewrite run_bind. unfold mbind, mmap. destruct (run x m) as [m' [a|e]]; reflexivity. Qed.
Ltac runs := repeat first [rewrite run_bind; apply mbind_ext; [intros|intros] | reflexivity].
Lemma run_pdu c v m : run (prequest_pdu c v) m = request_pdu c v m.
Proof. reflexivity. Qed.
Lemma run_pdu_version c1 c2 v ver m : run (prequest_pdu_version c1 c2 v ver) m = request_pdu_version c1 c2 v ver m.
Proof. unfold prequest_pdu_version, request_pdu_version. rewrite run_bind. apply mbind_ext; [intros; reflexivity|]. intros id m'. destruct (ver =? 1); [reflexivity|]. destruct (ver =? 2); reflexivity. Qed.
Lemma run_createPDU f c1 c2 v ver m : run (pcreatePDU f c1 c2 v ver) m =
  match f with FV1 => request_pdu c1 v m | FV2 => request_pdu c2 v m | FSM => request_pdu_version c1 c2 v ver m end.
Proof. destruct f; cbn [pcreatePDU]; [apply run_pdu|apply run_pdu|apply run_pdu_version]. Qed.
Lemma run_get f oid com ver m : run (pcreateGetRequestMessage f oid com ver) m = createGetRequestMessage f oid com ver m.
Proof.
  destruct f; cbn [pcreateGetRequestMessage createGetRequestMessage].
  - runs; try apply run_createPDU.
  - runs; try apply run_createPDU.
  - destruct (ver =? 1); [runs; try apply run_createPDU|]. destruct (ver =? 2); [runs; try apply run_createPDU|]. reflexivity.
Qed.
Lemma run_getnext f v com ver m : run (pcreateGetNextRequestMessage f v com ver) m = createGetNextRequestMessage f v com ver m.
Proof.
  destruct f; cbn [pcreateGetNextRequestMessage createGetNextRequestMessage]; [runs; try apply run_createPDU|reflexivity|].
  rewrite run_bind. apply mbind_ext; [intros; apply run_createPDU|]. intros. destruct (ver =? 1); reflexivity.
Qed.
Lemma run_set oid ty v com ver m : run (pcreateSetRequestMessage oid ty v com ver) m = createSetRequestMessage oid ty v com ver m.
Proof.
  unfold pcreateSetRequestMessage, createSetRequestMessage.
  destruct (ver =? 1); [runs; try apply run_createPDU|]. destruct (ver =? 2); [runs; try apply run_createPDU|]. reflexivity.
Qed.
Lemma run_queue msg dst cb m : run (pqueue_request msg dst cb) m = queue_request msg dst cb m.
Proof.
  unfold pqueue_request, queue_request. cbn [run]. unfold mbind at 1. cbn [put].
  rewrite run_bind. apply mbind_ext; [reflexivity|]. intros r m1. rewrite run_bind. apply mbind_ext; [reflexivity|]. intros id m2. reflexivity.
Qed.
Lemma mmap_ext {A B} (g : A -> B) x y m : (forall m, x m = y m) -> mmap g x m = mmap g y m.
Proof. intros H. unfold mmap. rewrite H. reflexivity. Qed.
Lemma run_call f a m : run (pcall f a) m = do_call f a m.
Proof.
  destruct a; cbn [pcall do_call].
  - rewrite run_map. apply mmap_ext. intros m0. unfold snmpGet. rewrite run_bind. apply mbind_ext; intros; [apply run_get|apply run_queue].
  - rewrite run_map. apply mmap_ext. intros m0. unfold snmpGetNext. rewrite run_bind. apply mbind_ext; intros; [apply run_getnext|apply run_queue].
  - rewrite run_map. apply mmap_ext. intros m0. destruct f; cbn [snmpSet_bindings]; [|runs; reflexivity|reflexivity].
    rewrite run_bind. apply mbind_ext; intros; [reflexivity|]. rewrite run_bind. apply mbind_ext; intros; [reflexivity|apply run_queue].
  - destruct f; [reflexivity|reflexivity|]. rewrite run_map. apply mmap_ext. intros m0. cbn [snmpSet_typed]. rewrite run_bind. apply mbind_ext; intros; [apply run_set|apply run_queue].
  - unfold snmpTrap, pcreateTrapMessage, createTrapMessage. destruct f; try reflexivity. destruct (_ || _); reflexivity.
  - rewrite run_map. reflexivity.
  - rewrite run_map. apply mmap_ext. intros; apply run_get.
  - rewrite run_map. apply mmap_ext. intros; apply run_getnext.
  - destruct f; try reflexivity. rewrite run_map. apply mmap_ext. intros; apply run_set.
Qed.

Definition others (ths ths' : nat -> thread) (t : nat) : Prop := forall u, u <> t -> ths' u = ths u.
Lemma set_same ths t th : set_thread ths t th t = th.
Proof. unfold set_thread. rewrite Nat.eqb_refl. reflexivity. Qed.
Lemma set_other ths t th u : u <> t -> set_thread ths t th u = ths u.
Proof. intros H. unfold set_thread. destruct (Nat.eqb_spec u t); [contradiction|reflexivity]. Qed.

Fixpoint pputs {A} (p : prog A) (m : mgr) : list event :=
  match p with
  | PRet r => []
  | PLoad k | PAgain k => pputs (k (nextRequestID m)) m
  | PStore n k => pputs k (mkMgr n (outbound m) (callbacks m))
  | PPut om dst k => EPut om dst :: pputs k (mkMgr (nextRequestID m) (outbound m ++ [(om, dst)]) (callbacks m))
  | PSet id cb k => pputs k (mkMgr (nextRequestID m) (outbound m) (dict_set (callbacks m) id cb))
  end.
Lemma accesses sys t a p : forall m ths lg, active (ths t) = Some (a, p) -> exists n ths',
  tsteps sys (mkTState m ths lg) (repeat (TAccess t) n) =
    Some (mkTState (fst (run p m)) ths' (lg ++ map (pair t) (pputs p m))) /\
  ths' t = mkThread (Some (a, PRet (snd (run p m)))) (frames (ths t)) /\ others ths ths' t.
Proof.
  induction p as [r|k IH|k IH|n k IH|om dst k IH|id cb k IH]; intros m ths lg H.
  - exists 0%nat, ths. cbn. rewrite app_nil_r. repeat split. destruct (ths t); cbn in *; subst; reflexivity.
  - destruct (IH (nextRequestID m) m (set_thread ths t (mkThread (Some (a, k (nextRequestID m))) (frames (ths t)))) lg) as (n & ths' & A & B & C).
    { rewrite set_same. reflexivity. }
    exists (S n), ths'. cbn [repeat tsteps tstep]. rewrite H. cbn [pstep map]. rewrite app_nil_r, A. cbn [run]. split; [reflexivity|].
    rewrite B, set_same. split; [reflexivity|]. intros u U. rewrite C, set_other; auto.
  - destruct (IH (nextRequestID m) m (set_thread ths t (mkThread (Some (a, k (nextRequestID m))) (frames (ths t)))) lg) as (n & ths' & A & B & C).
    { rewrite set_same. reflexivity. }
    exists (S n), ths'. cbn [repeat tsteps tstep]. rewrite H. cbn [pstep map]. rewrite app_nil_r, A. cbn [run]. split; [reflexivity|].
    rewrite B, set_same. split; [reflexivity|]. intros u U. rewrite C, set_other; auto.
  - destruct (IH (mkMgr n (outbound m) (callbacks m)) (set_thread ths t (mkThread (Some (a, k)) (frames (ths t)))) lg) as (n0 & ths' & A & B & C).
    { rewrite set_same. reflexivity. }
    exists (S n0), ths'. cbn [repeat tsteps tstep]. rewrite H. cbn [pstep map]. rewrite app_nil_r, A. cbn [run]. split; [reflexivity|].
    rewrite B, set_same. split; [reflexivity|]. intros u U. rewrite C, set_other; auto.
  - destruct (IH (mkMgr (nextRequestID m) (outbound m ++ [(om, dst)]) (callbacks m)) (set_thread ths t (mkThread (Some (a, k)) (frames (ths t)))) (lg ++ [(t, EPut om dst)])) as (n0 & ths' & A & B & C).
    { rewrite set_same. reflexivity. }
    exists (S n0), ths'. cbn [repeat tsteps tstep]. rewrite H. cbn [pstep map]. rewrite A. cbn [run pputs map]. rewrite <- app_assoc. split; [reflexivity|].
    rewrite B, set_same. split; [reflexivity|]. intros u U. rewrite C, set_other; auto.
  - destruct (IH (mkMgr (nextRequestID m) (outbound m) (dict_set (callbacks m) id cb)) (set_thread ths t (mkThread (Some (a, k)) (frames (ths t)))) lg) as (n0 & ths' & A & B & C).
    { rewrite set_same. reflexivity. }
    exists (S n0), ths'. cbn [repeat tsteps tstep]. rewrite H. cbn [pstep map]. rewrite app_nil_r, A. cbn [run]. split; [reflexivity|].
    rewrite B, set_same. split; [reflexivity|]. intros u U. rewrite C, set_other; auto.
Qed.
Lemma tsteps_app sys tr1 : forall st tr2, tsteps sys st (tr1 ++ tr2) = match tsteps sys st tr1 with Some st1 => tsteps sys st1 tr2 | None => None end.
Proof. induction tr1 as [|l tr1 IH]; intros st tr2; [reflexivity|]. cbn [app tsteps]. destruct (tstep sys st l); [apply IH|reflexivity]. Qed.
Lemma pputs_out {A} (p : prog A) : forall m, pputs p m = map (fun q => EPut (fst q) (snd q)) (skipn (length (outbound m)) (outbound (fst (run p m)))) /\
   exists q, outbound (fst (run p m)) = outbound m ++ q.
Proof.
  induction p as [r|k IH|k IH|n k IH|om dst k IH|id cb k IH]; intros m; cbn [pputs run].
  - cbn. rewrite skipn_all. split; [reflexivity|]. exists []. rewrite app_nil_r. reflexivity.
  - apply IH.
  - apply IH.
  - apply (IH (mkMgr n (outbound m) (callbacks m))).
  - destruct (IH (mkMgr (nextRequestID m) (outbound m ++ [(om, dst)]) (callbacks m))) as [E (q & Q)]. cbn [outbound] in E, Q.
    rewrite E, Q. rewrite app_length. cbn [length]. rewrite <- !app_assoc. rewrite skipn_app_same. split; [|eauto].
    replace (outbound m ++ [(om, dst)] ++ q) with ((outbound m ++ [(om, dst)]) ++ q) by (rewrite <- app_assoc; reflexivity).
    replace (length (outbound m) + 1)%nat with (length (outbound m ++ [(om, dst)])) by (rewrite app_length; reflexivity).
    rewrite skipn_app_same. reflexivity.
  - apply (IH (mkMgr (nextRequestID m) (outbound m) (dict_set (callbacks m) id cb))).
Qed.
Lemma alone_call sys st t a : active (threads st t) = None -> user_runs (frames (threads st t)) = true ->
  exists n st' m' r, do_call (flav sys) a (shared st) = (m', r) /\ tsteps sys st (alone t a n) = Some st' /\
    shared st' = m' /\ same_threads (threads st') (threads st) /\
    tlog st' = tlog st ++ map (pair t) (map (fun q => EPut (fst q) (snd q)) (skipn (length (outbound (shared st))) (outbound m')) ++ [ECall a r]).
Proof.
  destruct st as [m ths lg]. cbn [threads shared tlog]. intros A U.
  destruct (accesses sys t a (pcall (flav sys) a) m (set_thread ths t (mkThread (Some (a, pcall (flav sys) a)) (frames (ths t)))) lg) as (n & ths' & E & B & C).
  { rewrite set_same. reflexivity. }
  rewrite set_same in B. cbn [frames] in B.
  exists n. unfold alone. cbn [tsteps tstep]. rewrite A, U. rewrite tsteps_app, E. cbn [tsteps tstep]. rewrite B. cbn [active].
  rewrite run_call in *. destruct (do_call (flav sys) a m) as [m' r] eqn:D. eexists _, m', r. split; [reflexivity|]. split; [reflexivity|].
  cbn [shared threads tlog fst snd]. split; [reflexivity|]. split.
  - intros u. destruct (Nat.eq_dec u t) as [->|N]; [rewrite set_same|rewrite set_other by assumption].
    + cbn [frames]. destruct (ths t) as [x y]; cbn in *. subst. reflexivity.
    + rewrite C by assumption. apply set_other; assumption.
  - rewrite <- app_assoc. rewrite map_app. f_equal. f_equal.
    destruct (pputs_out (pcall (flav sys) a) m) as [P _]. rewrite run_call, D in P. rewrite P. reflexivity.
Qed.

(** ** The shape of a call: at most one assignRequestID, then at most one put and one registration. *)
Inductive leads {A} (Pre : prog A -> Prop) (Post : Z -> prog A -> Prop) : prog A -> Prop :=
| leads_pre p : Pre p -> leads Pre Post p
| leads_load k : (forall id, exists k2, k id = PAgain k2 /\ forall n, exists q, k2 n = PStore (n + 1) q /\ Post id q) ->
    leads Pre Post (PLoad k).
Lemma leads_bind {A B} (Pre : prog A -> Prop) Post (Pre' : prog B -> Prop) (Post' : Z -> prog B -> Prop) x f :
  leads Pre Post x -> (forall p, Pre p -> Pre' (pbind p f)) -> (forall id q, Post id q -> Post' id (pbind q f)) ->
  leads Pre' Post' (pbind x f).
Proof.
  intros L P Q. destruct L as [p H|k H]; [apply leads_pre; auto|]. cbn [pbind]. apply leads_load. intros id. destruct (H id) as (k2 & E & G).
  rewrite E. cbn [pbind]. eexists; split; [reflexivity|]. intros n. destruct (G n) as (q & E2 & K). rewrite E2. cbn [pbind]. eauto.
Qed.
Definition failed {A} (p : prog A) : Prop := exists e, p = PRet (Err e).
Lemma failed_bind {A B} (p : prog A) (f : A -> prog B) : failed p -> failed (pbind p f).
Proof. intros [e ->]. exists e. reflexivity. Qed.
Lemma leads_lift {A B} (r : res A) (f : A -> prog B) Post : (forall a, leads failed Post (f a)) -> leads failed Post (pbind (plift r) f).
Proof. intros H. destruct r as [a|e]; cbn [pbind plift]; [apply H|]. apply leads_pre. exists e. reflexivity. Qed.
Definition gives {A} (P : Z -> A -> Prop) (id : Z) (q : prog A) : Prop := exists r, q = PRet r /\ forall a, r = Ok a -> P id a.
Definition pdu_id (id : Z) (pdu : val) : Prop := exists c k rest, pdu = VSeq c (VInt k id :: rest).
Definition msg_id (id : Z) (m : message) : Prop := pdu_id id (m_data m).
Lemma leads_assign : leads failed (gives (fun id z => z = id)) passignRequestID.
Proof. apply leads_load. intros id. eexists; split; [reflexivity|]. intros n. eexists; split; [reflexivity|]. eexists; split; [reflexivity|]. intros a H; inversion H; reflexivity. Qed.
Lemma pdu_init_id c id v pdu : pdu_init c (VPyInt id) (VPyInt 0) (VPyInt 0) v = Ok pdu -> pdu_id id pdu.
Proof. intros H. apply pdu_init_shape in H as (k & e & i & v' & ->). unfold pdu_id. eauto. Qed.
Lemma leads_pdu c v : leads failed (gives pdu_id) (prequest_pdu c v).
Proof.
  eapply leads_bind; [apply leads_assign|intros ? Hf; exact (failed_bind _ _ Hf)|]. intros id q (r & -> & H). destruct r as [z|e]; cbn [pbind].
  - rewrite (H z eq_refl). eexists; split; [reflexivity|]. intros a. apply pdu_init_id.
  - eexists; split; [reflexivity|]. discriminate.
Qed.
Lemma leads_pdu_version c1 c2 v ver : leads failed (gives pdu_id) (prequest_pdu_version c1 c2 v ver).
Proof.
  eapply leads_bind; [apply leads_assign|intros ? Hf; exact (failed_bind _ _ Hf)|]. intros id q (r & -> & H). destruct r as [z|e]; cbn [pbind].
  - rewrite (H z eq_refl). eexists; split; [reflexivity|]. intros a. destruct (ver =? 1); [apply pdu_init_id|]. destruct (ver =? 2); [apply pdu_init_id|discriminate].
  - eexists; split; [reflexivity|]. discriminate.
Qed.
Lemma leads_createPDU f c1 c2 v ver : leads failed (gives pdu_id) (pcreatePDU f c1 c2 v ver).
Proof. destruct f; cbn [pcreatePDU]; [apply leads_pdu|apply leads_pdu|apply leads_pdu_version]. Qed.
Lemma leads_msg x (f : val -> prog message) : leads failed (gives pdu_id) x ->
  (forall pdu, exists msg, f pdu = PRet (Ok msg) /\ m_data msg = pdu) -> leads failed (gives msg_id) (pbind x f).
Proof.
  intros L F. eapply leads_bind; [exact L|intros ? Hf; exact (failed_bind _ _ Hf)|]. intros id q (r & -> & H). destruct r as [pdu|e]; cbn [pbind].
  - destruct (F pdu) as (msg & -> & D). eexists; split; [reflexivity|]. intros a E; inversion E; subst a. unfold msg_id. rewrite D. auto.
  - eexists; split; [reflexivity|]. discriminate.
Qed.
Lemma pmsg_v1 com pdu : exists msg, pmessage_v1 com pdu = PRet (Ok msg) /\ m_data msg = pdu.
Proof. unfold pmessage_v1, plift. eexists; split; reflexivity. Qed.
Lemma pmsg_v2 com pdu : exists msg, pmessage_v2 com pdu = PRet (Ok msg) /\ m_data msg = pdu.
Proof. unfold pmessage_v2, plift. eexists; split; reflexivity. Qed.
Lemma leads_err {A} Post e : leads (@failed A) Post (PRet (Err e)).
Proof. apply leads_pre. exists e. reflexivity. Qed.
Lemma leads_get f oid com ver : leads failed (gives msg_id) (pcreateGetRequestMessage f oid com ver).
Proof.
  destruct f; cbn [pcreateGetRequestMessage].
  - apply leads_lift; intros; apply leads_msg; [apply leads_createPDU|apply pmsg_v1].
  - apply leads_lift; intros; apply leads_msg; [apply leads_createPDU|apply pmsg_v2].
  - destruct (ver =? 1); [apply leads_lift; intros; apply leads_msg; [apply leads_createPDU|apply pmsg_v1]|].
    destruct (ver =? 2); [apply leads_lift; intros; apply leads_msg; [apply leads_createPDU|apply pmsg_v2]|]. apply leads_err.
Qed.
Lemma leads_getnext f v com ver : leads failed (gives msg_id) (pcreateGetNextRequestMessage f v com ver).
Proof.
  destruct f; cbn [pcreateGetNextRequestMessage].
  - apply leads_msg; [apply leads_createPDU|apply pmsg_v1].
  - apply leads_err.
  - apply leads_msg; [apply leads_createPDU|]. intros pdu. destruct (ver =? 1); [apply pmsg_v1|apply pmsg_v2].
Qed.
Lemma leads_set oid ty v com ver : leads failed (gives msg_id) (pcreateSetRequestMessage oid ty v com ver).
Proof.
  unfold pcreateSetRequestMessage.
  destruct (ver =? 1); [apply leads_lift; intros; apply leads_msg; [apply leads_createPDU|apply pmsg_v1]|].
  destruct (ver =? 2); [apply leads_lift; intros; apply leads_msg; [apply leads_createPDU|apply pmsg_v2]|]. apply leads_err.
Qed.

(** What remains after assignRequestID returned [id]; and before it, or in a call without it. *)
Inductive post (a : call) (id : Z) : prog answer -> Prop :=
| post_ret r : issued_by (ECall a r) = [] -> handed_by (ECall a r) = [] \/ handed_by (ECall a r) = [id] -> post a id (PRet r)
| post_put om dst q : post a id q -> post a id (PPut om dst q)
| post_set cb k : request_callback a = Some cb -> post a id (PSet id cb (PRet (Ok (RVal (VInt k id))))).
Definition pre (a : call) (p : prog answer) : Prop :=
  (exists r, p = PRet r /\ issued_by (ECall a r) = [] /\ handed_by (ECall a r) = []) \/
  (exists om dst, p = PPut om dst (PRet (Ok RNone))).
Lemma failed_pre a p : failed p -> pre a p.
Proof. intros [e ->]. left. eexists; split; [reflexivity|]. split; reflexivity. Qed.
Lemma leads_request a (x : prog message) dst cb : request_callback a = Some cb -> leads failed (gives msg_id) x ->
  leads (pre a) (post a) (pmap RVal (msg <+ x ;; pqueue_request msg dst cb)).
Proof.
  intros R L. unfold pmap.
  apply (leads_bind failed (fun id q => exists r, q = match r with Ok msg => pqueue_request msg dst cb | Err e => PRet (Err e) end /\ forall m, r = Ok m -> msg_id id m)).
  - eapply leads_bind; [exact L|intros ? Hf; exact (failed_bind _ _ Hf)|]. intros id q (r & -> & H). exists r. split; [destruct r; reflexivity|exact H].
  - intros p F. apply failed_pre, failed_bind, F.
  - intros id q (r & -> & H). destruct r as [msg|e]; [|apply post_ret; [reflexivity|left; reflexivity]].
    destruct (H msg eq_refl) as (c & k & rest & E). unfold pqueue_request. rewrite E. cbn. apply post_put, post_set, R.
Qed.
Lemma leads_message a (x : prog message) : (forall r, issued_by (ECall a r) = []) -> leads failed (gives msg_id) x -> leads (pre a) (post a) (pmap RMsg x).
Proof.
  intros R L. eapply leads_bind; [exact L|intros p F; apply failed_pre, failed_bind, F|]. intros id q (r & -> & H).
  destruct r as [msg|e]; cbn [pbind]; [|apply post_ret; [reflexivity|left; reflexivity]]. apply post_ret; [apply R|]. right.
  destruct (H msg eq_refl) as (c & k & rest & E). cbn. rewrite E. reflexivity.
Qed.
Lemma leads_fail a p : failed p -> leads (pre a) (post a) p.
Proof. intros F. apply leads_pre, failed_pre, F. Qed.
Lemma call_shape f a : leads (pre a) (post a) (pcall f a).
Proof.
  destruct a; cbn [pcall].
  - apply leads_request; [reflexivity|apply leads_get].
  - apply leads_request; [reflexivity|apply leads_getnext].
  - destruct f.
    + change (leads (pre (ASetBindings varbindlist remote cb community)) (post (ASetBindings varbindlist remote cb community))
        (pmap RVal (pdu <+ prequest_pdu CGetNext varbindlist ;; (msg <+ pmessage_v1 community pdu ;; pqueue_request msg remote cb)))).
      unfold pmap.
      apply (leads_bind failed (fun id q => exists r, q = match r with Ok msg => pqueue_request msg remote cb | Err e => PRet (Err e) end /\ forall m, r = Ok m -> msg_id id m)).
      * eapply leads_bind; [apply leads_pdu|intros ? Hf; exact (failed_bind _ _ Hf)|]. intros id q (r & -> & H). destruct r as [pdu|e]; cbn [pbind].
        -- destruct (pmsg_v1 community pdu) as (msg & -> & D). exists (Ok msg). split; [reflexivity|]. intros m E; inversion E; subst m. unfold msg_id. rewrite D. auto.
        -- exists (Err e). split; [reflexivity|discriminate].
      * intros p F. apply failed_pre, failed_bind, F.
      * intros id q (r & -> & H). destruct r as [msg|e]; [|apply post_ret; [reflexivity|left; reflexivity]].
        destruct (H msg eq_refl) as (c & k & rest & E). unfold pqueue_request. rewrite E. cbn. apply post_put, post_set. reflexivity.
    + eapply leads_bind; [eapply leads_bind; [apply leads_assign|intros ? Hf; exact (failed_bind _ _ Hf)|]|intros p F; apply failed_pre, failed_bind, F|].
      * intros id q (r & -> & H). assert (F : failed (pbind (PRet r) (fun _ : Z => PRet (@Err val AttributeError)))) by (destruct r; cbn; eexists; reflexivity).
        instantiate (1 := fun _ q => failed q). exact F.
      * intros id q [e ->]. cbn. apply post_ret; [reflexivity|left; reflexivity].
    + apply leads_fail. eexists; reflexivity.
  - destruct f; try (apply leads_fail; eexists; reflexivity). apply leads_request; [reflexivity|apply leads_set].
  - apply leads_pre. destruct f; cbn [pcreateTrapMessage].
    + destruct (pmsg_v1 community trapPDU) as (msg & -> & D). cbn. right. eauto.
    + destruct (pmsg_v2 community trapPDU) as (msg & -> & D). cbn. right. eauto.
    + destruct (_ || _); cbn; [apply failed_pre; eexists; reflexivity|right; eauto].
  - eapply leads_bind; [apply leads_assign|intros p F; apply failed_pre, failed_bind, F|]. intros id q (r & -> & H).
    destruct r as [z|e]; cbn [pbind]; [|apply post_ret; [reflexivity|left; reflexivity]]. rewrite (H z eq_refl). apply post_ret; [reflexivity|right; reflexivity].
  - apply leads_message; [intros [[]|]; reflexivity|apply leads_get].
  - apply leads_message; [intros [[]|]; reflexivity|apply leads_getnext].
  - destruct f; try (apply leads_fail; eexists; reflexivity). apply leads_message; [intros [[]|]; reflexivity|apply leads_set].
Qed.

(** ** Where each thread is in its call (ghost) *)
Inductive gphase := GIdle | GPre | GMid (id : Z) | GStore (id n : Z) | GPost (id : Z) | GReg (id : Z) (cb : cbval).
Definition phased (x : option (call * prog answer)) (g : gphase) : Prop :=
  match g with
  | GIdle => x = None
  | GPre => exists a p, x = Some (a, p) /\ leads (pre a) (post a) p
  | GMid id => exists a k, x = Some (a, PAgain k) /\ forall n, exists q, k n = PStore (n + 1) q /\ post a id q
  | GStore id n => exists a q, x = Some (a, PStore (n + 1) q) /\ post a id q
  | GPost id => exists a p, x = Some (a, p) /\ post a id p
  | GReg id cb => exists a k, x = Some (a, PRet (Ok (RVal (VInt k id)))) /\ request_callback a = Some cb
  end.
Definition set_phase (ph : nat -> gphase) (t : nat) (g : gphase) : nat -> gphase := fun u => if Nat.eqb u t then g else ph u.
Lemma sp_same ph t g : set_phase ph t g t = g.
Proof. unfold set_phase. rewrite Nat.eqb_refl. reflexivity. Qed.
Lemma sp_other ph t g u : u <> t -> set_phase ph t g u = ph u.
Proof. intros H. unfold set_phase. destruct (Nat.eqb_spec u t); [contradiction|reflexivity]. Qed.
Definition m_put (m : mgr) om dst := mkMgr (nextRequestID m) (outbound m ++ [(om, dst)]) (callbacks m).
Definition m_set (m : mgr) id cb := mkMgr (nextRequestID m) (outbound m) (dict_set (callbacks m) id cb).
Definition m_store (m : mgr) n := mkMgr n (outbound m) (callbacks m).
Inductive tmove (m : mgr) : bool -> gphase -> mgr -> gphase -> list event -> Prop :=
| mv_begin : tmove m true GIdle m GPre []
| mv_load : tmove m false GPre m (GMid (nextRequestID m)) []
| mv_trap om dst : tmove m false GPre (m_put m om dst) GPre [EPut om dst]
| mv_again id : tmove m false (GMid id) m (GStore id (nextRequestID m)) []
| mv_store id n : tmove m false (GStore id n) (m_store m (n + 1)) (GPost id) []
| mv_put id om dst : tmove m false (GPost id) (m_put m om dst) (GPost id) [EPut om dst]
| mv_set id cb : tmove m false (GPost id) (m_set m id cb) (GReg id cb) []
| mv_end_pre a r : issued_by (ECall a r) = [] -> handed_by (ECall a r) = [] -> tmove m false GPre m GIdle [ECall a r]
| mv_end_post id a r : issued_by (ECall a r) = [] -> handed_by (ECall a r) = [] \/ handed_by (ECall a r) = [id] ->
    tmove m false (GPost id) m GIdle [ECall a r]
| mv_end_reg id cb a r : issued_by (ECall a r) = [(id, cb)] -> handed_by (ECall a r) = [id] ->
    tmove m false (GReg id cb) m GIdle [ECall a r]
| mv_quiet q : Forall quiet q -> tmove m false GIdle m GIdle q
| mv_invoke id n msg : pending m id (Cb n) -> tmove m false GIdle m GIdle [EInvoke id n msg]
| mv_invoke_trap n msg : tmove m false GIdle m GIdle [EInvokeTrap n msg]
| mv_finish f id r m' r' q : after_response f m id r = (m', r') -> Forall quiet q -> tmove m false GIdle m' GIdle (EFinished id r :: q)
| mv_take om dst q s qq : outbound m = (om, dst) :: q -> (s = [] \/ exists os rr, s = [ESend os dst rr]) -> Forall quiet qq -> sends s = octets_of (om, dst) ->
    tmove m false GIdle (mkMgr (nextRequestID m) q (callbacks m)) GIdle (ETake om dst :: s ++ qq).
Definition is_begin (l : tlabel) : bool := match l with TBegin _ _ => true | _ => false end.

Lemma tstep_move sys st l st' ph : (forall t, phased (active (threads st t)) (ph t)) -> tstep sys st l = Some st' ->
  exists t th' g' evs, tmove (shared st) (is_begin l) (ph t) (shared st') g' evs /\
    threads st' = set_thread (threads st) t th' /\ tlog st' = tlog st ++ map (pair t) evs /\ phased (active th') g'.
Proof.
  intros P H. destruct st as [m ths lg]. cbn [threads shared tlog] in *. destruct l as [t a|t|t|t l]; cbn [tstep] in H; cbn [is_begin]; specialize (P t).
  - destruct (active (ths t)) as [|] eqn:A; [discriminate|]. destruct (user_runs _); [|discriminate]. inversion H; subst; clear H.
    exists t, (mkThread (Some (a, pcall (flav sys) a)) (frames (ths t))), GPre, []. cbn.
    replace (ph t) with GIdle. 2:{ destruct (ph t); cbn in P; auto; destruct P as (? & ? & ? & ?); discriminate. }
    split; [apply mv_begin|]. rewrite app_nil_r. repeat split. eexists _, _; split; [reflexivity|]. apply call_shape.
  - destruct (active (ths t)) as [[a p]|] eqn:A; [|discriminate].
    destruct (ph t) as [| |id|id n|id|id cb] eqn:G; cbn in P.
    + discriminate.
    + destruct P as (a' & p' & E & L). inversion E; subst a' p'. destruct L as [p L|k L].
      * destruct L as [(r & -> & _ & _)|(om & dst & ->)]; [discriminate|]. cbn in H. inversion H; subst; clear H.
        eexists t, _, GPre, [EPut om dst]. rewrite G. split; [apply mv_trap|]. split; [reflexivity|]. split; [reflexivity|].
        eexists _, _; split; [reflexivity|]. apply leads_pre. left. eexists; split; [reflexivity|]. split; reflexivity.
      * cbn in H. inversion H; subst; clear H. eexists t, _, (GMid (nextRequestID m)), []. rewrite G. split; [apply mv_load|]. split; [reflexivity|]. split; [reflexivity|].
        destruct (L (nextRequestID m)) as (k2 & E2 & L2). cbn. exists a, k2. rewrite E2. auto.
    + destruct P as (a' & k & E & L). inversion E; subst a' p. cbn in H. inversion H; subst; clear H.
      eexists t, _, (GStore id (nextRequestID m)), []. rewrite G. split; [apply mv_again|]. split; [reflexivity|]. split; [reflexivity|].
      destruct (L (nextRequestID m)) as (q & E2 & L2). cbn. exists a, q. rewrite E2. auto.
    + destruct P as (a' & q & E & L). inversion E; subst a' p. cbn in H. inversion H; subst; clear H.
      eexists t, _, (GPost id), []. rewrite G. split; [apply mv_store|]. split; [reflexivity|]. split; [reflexivity|]. cbn. eauto.
    + destruct P as (a' & q & E & L). inversion E; subst a' q. destruct L as [r I K|om dst q L|cb k R].
      * discriminate.
      * cbn in H. inversion H; subst; clear H.
        eexists t, _, (GPost id), [EPut om dst]. rewrite G. split; [apply mv_put|]. split; [reflexivity|]. split; [reflexivity|]. cbn. eauto.
      * cbn in H. inversion H; subst; clear H.
        eexists t, _, (GReg id cb), []. rewrite G. split; [apply mv_set|]. split; [reflexivity|]. split; [reflexivity|]. cbn. eauto.
    + destruct P as (a' & k & E & R). inversion E; subst. discriminate.
  - destruct (active (ths t)) as [[a p]|] eqn:A; [|discriminate]. destruct p as [r| | | | |]; try discriminate. inversion H; subst; clear H. cbn.
    eexists t, _, GIdle, [ECall a r]. split; [|split; [reflexivity|split; reflexivity]].
    destruct (ph t) as [| |id|id n|id|id cb] eqn:G; cbn in P.
    + discriminate.
    + destruct P as (a' & p' & E & L). inversion E; subst a' p'. inversion L as [p L1 E1|]; subst p. destruct L1 as [(r0 & E1 & I & K)|(om & dst & E1)]; inversion E1; subst. apply mv_end_pre; assumption.
    + destruct P as (a' & k & E & L). discriminate.
    + destruct P as (a' & q & E & L). discriminate.
    + destruct P as (a' & q & E & L). inversion E; subst a' q. inversion L; subst. apply mv_end_post; assumption.
    + destruct P as (a' & k & E & R). inversion E; subst. apply mv_end_reg; [|reflexivity]. unfold issued_by. rewrite R. reflexivity.
  - destruct (active (ths t)) as [|] eqn:A; [discriminate|]. destruct (is_call l) eqn:C; [discriminate|].
    destruct (step sys (mkState m (frames (ths t)) []) l) as [s'|] eqn:S; [|discriminate]. inversion H; subst; clear H.
    assert (G : ph t = GIdle) by (destruct (ph t); cbn in P; auto; destruct P as (? & ? & ? & ?); discriminate).
    apply step_effect in S. cbn [threads shared tlog].
    assert (X : exists evs, tmove m false GIdle (man s') GIdle evs /\ log s' = evs).
    { inversion S; subst; cbn [man log app] in *.
      - discriminate C.
      - eexists; split; [|reflexivity]. apply mv_quiet; assumption.
      - eexists; split; [|reflexivity]. apply mv_invoke; assumption.
      - eexists; split; [|reflexivity]. apply mv_invoke_trap.
      - eexists; split; [|reflexivity]. eapply mv_finish; eassumption.
      - eexists; split; [|reflexivity]. apply mv_take; assumption. }
    destruct X as (evs & X & ->). eexists t, _, GIdle, evs. split; [|split; [reflexivity|split; [reflexivity|reflexivity]]].
    rewrite G. exact X.
Qed.

Lemma tsteps_snoc sys st tr l st' : tsteps sys st (tr ++ [l]) = Some st' -> exists st1, tsteps sys st tr = Some st1 /\ tstep sys st1 l = Some st'.
Proof.
  rewrite tsteps_app. destruct (tsteps sys st tr) as [st1|]; [|discriminate]. cbn [tsteps]. intros H. exists st1. split; [reflexivity|].
  destruct (tstep sys st1 l); [exact H|discriminate].
Qed.
Lemma events_app st st' t evs : tlog st' = tlog st ++ map (pair t) evs -> events st' = events st ++ evs.
Proof. intros H. unfold events. rewrite H, map_app. f_equal. rewrite map_map. cbn. apply map_id. Qed.
Lemma begun_snoc tr l : begun (tr ++ [l]) = begun tr + if is_begin l then 1 else 0.
Proof.
  unfold begun, zlen. rewrite filter_app, app_length. cbn [filter]. destruct l; cbn; lia.
Qed.
Lemma quiet_handed q : Forall quiet q -> handed_out q = [].
Proof. apply handed_quiet. Qed.

Definition prestore (g : gphase) : bool := match g with GPre | GMid _ | GStore _ _ => true | _ => false end.
Definition bounded (g : gphase) (s : Z) : Prop :=
  match g with
  | GMid id => 0 <= id <= s
  | GStore id n => 0 <= id <= s /\ 0 <= n <= s
  | GPost id | GReg id _ => 0 <= id < s
  | _ => True
  end.
Record rinv (b : Z) (st : tstate) (ph : nat -> gphase) (L : list nat) (s : Z) : Prop := {
  r_ph : forall t, phased (active (threads st t)) (ph t);
  r_nd : NoDup L;
  r_in : forall t, In t L <-> prestore (ph t) = true;
  r_count : s + zlen L <= b;
  r_next : 0 <= nextRequestID (shared st) <= s;
  r_bd : forall t, bounded (ph t) s;
  r_log : Forall (fun id => 0 <= id < s) (handed_out (events st)) }.
Lemma rinv_phase b st ph L s t th' g' : rinv b st ph L s -> phased (active th') g' ->
  forall u, phased (active (set_thread (threads st) t th' u)) (set_phase ph t g' u).
Proof.
  intros R P u. destruct (Nat.eq_dec u t) as [->|N]; [rewrite set_same, sp_same; exact P|rewrite set_other, sp_other by assumption; apply R].
Qed.
Lemma move_calls m b g m' g' evs : tmove m b g m' g' evs -> 
  handed_out evs = [] \/ (exists id, handed_out evs = [id] /\ (g = GPost id \/ exists cb, g = GReg id cb)).
Proof.
  intros M. inversion M; subst; try (left; reflexivity).
  - left. unfold handed_out. cbn [flat_map]. rewrite H0. reflexivity.
  - destruct H0 as [E|E]; unfold handed_out; cbn [flat_map]; rewrite E; [left; reflexivity|right; exists id; split; [reflexivity|left; reflexivity]].
  - right. exists id. unfold handed_out; cbn [flat_map]; rewrite H0. split; [reflexivity|right; eauto].
  - left. apply handed_quiet; assumption.
  - left. cbn. apply handed_quiet; assumption.
  - left. change (handed_out (s ++ qq) = []). rewrite handed_app, (handed_quiet qq) by assumption. destruct H0 as [->|(os & rr & ->)]; reflexivity.
Qed.
Lemma zlen_app {A} (a b : list A) : zlen (a ++ b) = zlen a + zlen b.
Proof. unfold zlen. rewrite app_length. lia. Qed.
Lemma bounded_mono g s s' : s <= s' -> bounded g s -> bounded g s'.
Proof. destruct g; cbn; lia. Qed.
Lemma rinv_step sys b st ph L s l st' : rinv b st ph L s -> tstep sys st l = Some st' ->
  exists ph' L' s', rinv (b + if is_begin l then 1 else 0) st' ph' L' s'.
Proof.
  intros R H. destruct (tstep_move _ _ _ _ _ (r_ph _ _ _ _ _ R) H) as (t & th' & g' & evs & M & T & LG & P').
  pose proof (rinv_phase _ _ _ _ _ t _ _ R P') as PH. rewrite <- T in PH.
  pose proof (r_bd _ _ _ _ _ R t) as BT. pose proof (r_next _ _ _ _ _ R) as NX. pose proof (r_count _ _ _ _ _ R) as CT.
  pose proof (r_in _ _ _ _ _ R t) as IT.
  assert (HL : Forall (fun id => 0 <= id < s) (handed_out (events st'))).
  { rewrite (events_app _ _ _ _ LG), handed_app. apply Forall_app. split; [apply R|].
    destruct (move_calls _ _ _ _ _ _ M) as [->|(id & -> & [G|[cb G]])]; [constructor| |]; (constructor; [rewrite G in BT; exact BT|constructor]). }
  set (ph' := set_phase ph t g') in *.
  (* the new list *)
  assert (LIST : exists L', NoDup L' /\ (forall u, In u L' <-> prestore (ph' u) = true) /\
             zlen L' = zlen L + (if prestore g' then 1 else 0) - (if prestore (ph t) then 1 else 0)).
  { destruct (prestore (ph t)) eqn:E1.
    - destruct IT as [_ IT]. specialize (IT eq_refl). apply in_split in IT as (l1 & l2 & EL). pose proof (r_nd _ _ _ _ _ R) as ND. rewrite EL in ND.
      destruct (prestore g') eqn:E2.
      + exists L. split; [apply R|]. split; [|lia]. intros u. unfold ph'. destruct (Nat.eq_dec u t) as [->|N].
        * rewrite sp_same, E2. rewrite (r_in _ _ _ _ _ R), E1. tauto.
        * rewrite sp_other by assumption. apply R.
      + exists (l1 ++ l2). split; [eapply NoDup_remove_1; exact ND|]. split.
        * intros u. unfold ph'. destruct (Nat.eq_dec u t) as [->|N].
          -- rewrite sp_same, E2. split; [|discriminate]. intros I. apply NoDup_remove_2 in ND. contradiction.
          -- rewrite sp_other by assumption. rewrite <- (r_in _ _ _ _ _ R u), EL. rewrite !in_app_iff. cbn. intuition congruence.
        * rewrite EL. rewrite !zlen_app. unfold zlen. cbn [length]. lia.
    - destruct (prestore g') eqn:E2.
      + exists (t :: L). split; [constructor; [rewrite IT; congruence|apply R]|]. split; [|unfold zlen; cbn [length]; lia].
        intros u. unfold ph'. destruct (Nat.eq_dec u t) as [->|N].
        * rewrite sp_same, E2. cbn. tauto.
        * rewrite sp_other by assumption. cbn. rewrite (r_in _ _ _ _ _ R u). intuition congruence.
      + exists L. split; [apply R|]. split; [|lia]. intros u. unfold ph'. destruct (Nat.eq_dec u t) as [->|N].
        * rewrite sp_same, E2. rewrite IT. reflexivity.
        * rewrite sp_other by assumption. apply R. }
  destruct LIST as (L' & ND' & IN' & LEN').
  assert (BD : forall s', s <= s' -> bounded g' s' -> forall u, bounded (ph' u) s').
  { intros s' S B u. unfold ph'. destruct (Nat.eq_dec u t) as [->|N]; [rewrite sp_same; exact B|rewrite sp_other by assumption].
    eapply bounded_mono; [exact S|apply R]. }
  assert (LL : 0 <= zlen L) by (unfold zlen; lia).
  exists ph', L', (s + match ph t, g' with GStore _ _, GPost _ => 1 | _, _ => 0 end).
  assert (G : (forall x, is_begin l = x -> zlen L' <= zlen L + (if x then 1 else 0) - match ph t, g' with GStore _ _, GPost _ => 1 | _, _ => 0 end) /\
              (0 <= nextRequestID (shared st') <= s + match ph t, g' with GStore _ _, GPost _ => 1 | _, _ => 0 end) /\
              bounded g' (s + match ph t, g' with GStore _ _, GPost _ => 1 | _, _ => 0 end)).
  { inversion M as [A1 A2 A3 A4 A5|A1 A2 A3 A4 A5|om dst A1 A2 A3 A4 A5|id A1 A2 A3 A4 A5|id n A1 A2 A3 A4 A5|id om dst A1 A2 A3 A4 A5|id cb A1 A2 A3 A4 A5
      |a r I1 I2 A1 A2 A3 A4 A5|id a r I1 I2 A1 A2 A3 A4 A5|id cb a r I1 I2 A1 A2 A3 A4 A5|q Q A1 A2 A3 A4 A5|id n msg Q A1 A2 A3 A4 A5|n msg A1 A2 A3 A4 A5
      |f id r m' r' q Q1 Q2 A1 A2 A3 A4 A5|om dst q sx qq Q1 Q2 Q3 Q4 A1 A2 A3 A4 A5];
    rewrite <- A2 in *; try rewrite <- A3 in *; try rewrite <- A4 in *; cbn [prestore bounded] in *;
    try rewrite <- A1 in *; cbn [nextRequestID m_put m_set m_store] in *; try (repeat split; intros; subst; lia).
    assert (nextRequestID (shared st') = nextRequestID (shared st)).
    { unfold after_response in Q1. destruct r; [destruct (dict_get _ _)|]; inversion Q1 as [[E1 E2]]; rewrite <- A3, <- E1; reflexivity. }
    repeat split; intros; subst; lia. }
  destruct G as (G1 & G2 & G3). specialize (G1 _ eq_refl).
  constructor; auto.
  - destruct (is_begin l); lia.
  - apply BD; [|exact G3]. destruct (ph t), g'; lia.
  - eapply Forall_impl; [|exact HL]. intros id Hid; cbn in Hid. destruct (ph t), g'; lia.
Qed.
Lemma rinv_init : rinv 0 tinit (fun _ => GIdle) [] 0.
Proof. constructor; cbn; try reflexivity; try constructor; try lia; auto; try discriminate; intros []. Qed.
Lemma texec_rinv sys tr : forall st, texec sys tr = Some st -> exists ph L s, rinv (begun tr) st ph L s.
Proof.
  induction tr as [|l tr IH] using rev_ind; intros st H.
  - inversion H; subst. eexists _, _, _. apply rinv_init.
  - apply tsteps_snoc in H as (st1 & H1 & H2). destruct (IH _ H1) as (ph & L & s & R). rewrite begun_snoc. eapply rinv_step; eassumption.
Qed.
Lemma ids_range sys tr st id : texec sys tr = Some st -> In id (handed_out (events st)) -> 0 <= id < begun tr.
Proof.
  intros H I. destruct (texec_rinv _ _ _ H) as (ph & L & s & R). pose proof (r_log _ _ _ _ _ R) as F. rewrite Forall_forall in F. specialize (F _ I).
  pose proof (r_count _ _ _ _ _ R). assert (0 <= zlen L) by (unfold zlen; lia). lia.
Qed.

(** ** With assignRequestID in one thread at a time *)
Definition kept (g : gphase) (id : Z) : Prop := g = GPost id \/ exists cb, g = GReg id cb.
Definition owner (st : tstate) (ph : nat -> gphase) (id : Z) (cb : cbval) : Prop :=
  In (id, cb) (issued (events st)) \/ exists t, ph t = GReg id cb.
Definition placed (g : gphase) (n : Z) : Prop :=
  match g with
  | GMid id => id = n
  | GStore id k => id = n /\ k = n
  | GPost id | GReg id _ => 0 <= id < n
  | _ => True
  end.
Record einv (st : tstate) (ph : nat -> gphase) : Prop := {
  e_ph : forall t, phased (active (threads st t)) (ph t);
  e_next : 0 <= nextRequestID (shared st);
  e_mid : forall t, placed (ph t) (nextRequestID (shared st));
  e_dist : forall t u id, t <> u -> kept (ph t) id -> kept (ph u) id -> False;
  e_nd : NoDup (handed_out (events st));
  e_lt : forall id, In id (handed_out (events st)) -> 0 <= id < nextRequestID (shared st);
  e_kept : forall t id, kept (ph t) id -> ~ In id (handed_out (events st));
  e_iss : forall id cb, In (id, cb) (issued (events st)) -> In id (handed_out (events st));
  e_uniq : forall id cb cb', In (id, cb) (issued (events st)) -> In (id, cb') (issued (events st)) -> cb = cb';
  e_keys : NoDup (map fst (callbacks (shared st)));
  e_own : forall id cb, dict_get (callbacks (shared st)) id = Some cb -> owner st ph id cb;
  e_inv : forall id n msg, In (EInvoke id n msg) (events st) -> owner st ph id (Cb n);
  e_fin : forall id cb, owner st ph id cb -> normal_finishes id (events st) = 0%nat -> dict_get (callbacks (shared st)) id = Some cb }.
Lemma owner_unique st ph id cb cb' : einv st ph -> owner st ph id cb -> owner st ph id cb' -> cb = cb'.
Proof.
  intros E [I|[t G]] [J|[u H]].
  - eapply e_uniq; eassumption.
  - exfalso. apply (e_kept _ _ E u id); [right; eauto|eapply e_iss; eassumption].
  - exfalso. apply (e_kept _ _ E t id); [right; eauto|eapply e_iss; eassumption].
  - destruct (Nat.eq_dec t u) as [->|N]; [congruence|]. exfalso. eapply (e_dist _ _ E t u id N); right; eauto.
Qed.
Lemma quiet_no_invoke q id n msg : Forall quiet q -> ~ In (EInvoke id n msg) q.
Proof. intros F I. rewrite Forall_forall in F. specialize (F _ I). destruct F. Qed.
Lemma assigning_phase st ph t : (forall t, phased (active (threads st t)) (ph t)) ->
  match ph t with GMid _ | GStore _ _ => True | _ => False end -> assigning (threads st t).
Proof.
  intros P G. specialize (P t). unfold assigning. destruct (ph t); try contradiction; destruct P as (a & k & -> & _); exact Logic.I.
Qed.
(** A step that leaves counter, dict and phases of requests alone. *)
Lemma einv_same st ph st' ph' evs : einv st ph ->
  (forall t, phased (active (threads st' t)) (ph' t)) ->
  nextRequestID (shared st') = nextRequestID (shared st) -> callbacks (shared st') = callbacks (shared st) ->
  events st' = events st ++ evs -> handed_out evs = [] -> issued evs = [] -> (forall id, normal_finishes id evs = 0%nat) ->
  (forall id n msg, In (EInvoke id n msg) evs -> dict_get (callbacks (shared st)) id = Some (Cb n)) ->
  (forall t, placed (ph' t) (nextRequestID (shared st))) -> (forall t id, kept (ph' t) id <-> kept (ph t) id) ->
  (forall t id cb, ph' t = GReg id cb <-> ph t = GReg id cb) -> einv st' ph'.
Proof.
  intros E P HN HC HE HH HI HF HV PL K G.
  assert (O : forall id cb, owner st' ph' id cb <-> owner st ph id cb).
  { intros id cb. unfold owner. rewrite HE, issued_app, HI, app_nil_r. split; intros [I|[t H]]; auto; right; exists t; apply G; exact H. }
  constructor; rewrite ?HN, ?HC, ?HE, ?handed_app, ?HH, ?issued_app, ?HI, ?app_nil_r; try apply E; auto.
  - intros t u id N A B. rewrite K in A, B. eapply (e_dist _ _ E); eassumption.
  - intros t id A. rewrite K in A. eapply (e_kept _ _ E); eassumption.
  - intros id cb D. apply O, (e_own _ _ E), D.
  - intros id n msg I. apply O. apply in_app_or in I as [I|I]; [eapply e_inv; eassumption|]. apply (e_own _ _ E). eapply HV, I.
  - intros id cb W F. apply O in W. rewrite normal_app in F. apply (e_fin _ _ E); [exact W|lia].
Qed.
Lemma normal_quiet q id : Forall quiet q -> normal_finishes id q = 0%nat.
Proof.
  intros F. induction F as [|e q Q F IH]; [reflexivity|]. change (e :: q) with ([e] ++ q). rewrite normal_app, IH. destruct e; try destruct Q; reflexivity.
Qed.
Lemma issued_quiet q : Forall quiet q -> issued q = [].
Proof. intros F. apply quiet_nil in F. tauto. Qed.
Lemma in_single {A} (x y : A) : In x [y] <-> x = y.
Proof. cbn. intuition. Qed.
Lemma nodup_snoc {A} (l : list A) x : NoDup l -> ~ In x l -> NoDup (l ++ [x]).
Proof. intros H N. apply (Permutation.Permutation_NoDup (Permutation.Permutation_cons_append l x)). constructor; assumption. Qed.
Ltac here t u := destruct (Nat.eq_dec u t) as [->|?]; [rewrite ?sp_same|rewrite ?sp_other by assumption].
Lemma kept_inj g id id' : kept g id -> kept g id' -> id = id'.
Proof. intros [->|[cb ->]] [H|[cb' H]]; inversion H; reflexivity. Qed.
Ltac old E := first [exact (e_nd _ _ E)|exact (e_iss _ _ E)|exact (e_uniq _ _ E)|exact (e_keys _ _ E)|exact (e_next _ _ E)|exact (e_lt _ _ E)|exact (e_kept _ _ E)|exact (e_dist _ _ E)|assumption].
Lemma einv_step sys st ph l st' : einv st ph -> (forall t u, assigning (threads st t) -> assigning (threads st u) -> t = u) ->
  tstep sys st l = Some st' -> exists ph', einv st' ph'.
Proof.
  intros E X H. destruct (tstep_move _ _ _ _ _ (e_ph _ _ E) H) as (t & th' & g' & evs & M & T & LG & P').
  assert (PH : forall u, phased (active (threads st' u)) (set_phase ph t g' u)).
  { intros u. rewrite T. here t u; [rewrite set_same; exact P'|rewrite set_other by assumption; apply E]. }
  apply events_app in LG. exists (set_phase ph t g'). pose proof (e_mid _ _ E) as PL. pose proof (PL t) as PT.
  remember (ph t) as g eqn:G. remember (shared st') as m' eqn:S'. remember (is_begin l) as bb.
  destruct M as [| |om dst|id|id n|id om dst|id cb|a r I1 I2|id a r I1 I2|id cb a r I1 I2|q Q|id n msg Q|n msg
      |f id r m' r' q Q1 Q2|om dst q sx qq Q1 Q2 Q3 Q4].
  - eapply (einv_same st ph); eauto; try (rewrite <- S'; reflexivity); try (intros; contradiction); try (intros u; here t u; [exact Logic.I|apply PL]).
    + intros u id. here t u; [|tauto]. rewrite <- G. unfold kept. split; intros [A|[? A]]; discriminate.
    + intros u id cb. here t u; [|tauto]. rewrite <- G. split; discriminate.
  - eapply (einv_same st ph); eauto; try (rewrite <- S'; reflexivity); try (intros; contradiction); try (intros u; here t u; [reflexivity|apply PL]).
    + intros u id. here t u; [|tauto]. rewrite <- G. unfold kept. split; intros [A|[? A]]; discriminate.
    + intros u id cb. here t u; [|tauto]. rewrite <- G. split; discriminate.
  - eapply (einv_same st ph); eauto; try (rewrite <- S'; reflexivity); try (intros ? ? ? [A|[]]; discriminate); try (intros u; here t u; [exact Logic.I|apply PL]).
    + intros u id. here t u; [|tauto]. rewrite <- G. unfold kept. split; intros [A|[? A]]; discriminate.
    + intros u id cb. here t u; [|tauto]. rewrite <- G. split; discriminate.
  - eapply (einv_same st ph); eauto; try (rewrite <- S'; reflexivity); try (intros; contradiction); try (intros u; here t u; [split; [exact PT|reflexivity]|apply PL]).
    + intros u id'. here t u; [|tauto]. rewrite <- G. unfold kept. split; intros [A|[? A]]; discriminate.
    + intros u id' cb. here t u; [|tauto]. rewrite <- G. split; discriminate.
  - (* store *)
    destruct PT as [-> ->]. rewrite app_nil_r in LG. set (N := nextRequestID (shared st)) in *.
    assert (OT : forall u, u <> t -> match ph u with GMid _ | GStore _ _ => False | _ => True end).
    { intros u U. destruct (ph u) eqn:GU; auto; exfalso; apply U, X; apply (assigning_phase _ ph); try apply E; rewrite ?GU, <- ?G; exact Logic.I. }
    assert (O : forall id cb, owner st' (set_phase ph t (GPost N)) id cb <-> owner st ph id cb).
    { intros id cb. unfold owner. rewrite LG. split; intros [I|[u A]]; auto; right; exists u.
      - revert A. here t u; [discriminate|auto].
      - here t u; [congruence|exact A]. }
    assert (KP : forall u id, kept (set_phase ph t (GPost N) u) id -> (u = t /\ id = N) \/ (u <> t /\ kept (ph u) id /\ 0 <= id < N)).
    { intros u id. here t u; [intros [A|[? A]]; inversion A; auto|]. intros A. right. split; [assumption|]. split; [exact A|].
      specialize (PL u). destruct A as [A|[cb A]]; rewrite A in PL; exact PL. }
    pose proof (e_next _ _ E) as N0. fold N in N0.
    constructor; rewrite <- ?S', ?LG; cbn [nextRequestID callbacks m_store]; try old E; try lia.
    + intros u. here t u; [cbn; lia|]. specialize (PL u). specialize (OT u ltac:(assumption)). destruct (ph u); cbn in *; try contradiction; lia.
    + intros u v id U A B. apply KP in A, B. destruct A as [[-> ->]|(A1 & A2 & A3)], B as [[-> B]|(B1 & B2 & B3)]; try congruence; try lia.
      exact (e_dist _ _ E u v id U A2 B2).
    + intros id I. apply (e_lt _ _ E) in I. fold N in I. lia.
    + intros u id A I. apply KP in A as [[-> ->]|(A1 & A2 & A3)]; [apply (e_lt _ _ E) in I; fold N in I; lia|]. exact (e_kept _ _ E u id A2 I).
    + intros id cb D. apply O, (e_own _ _ E), D.
    + intros id n msg I. apply O. eapply e_inv; eassumption.
    + intros id cb W F. apply O in W. apply (e_fin _ _ E); assumption.
  - eapply (einv_same st ph); eauto; try (rewrite <- S'; reflexivity); try (intros ? ? ? [A|[]]; discriminate); try (intros u; here t u; [exact PT|apply PL]).
    + intros u id'. here t u; [|tauto]. rewrite <- G. tauto.
    + intros u id' cb. here t u; [|tauto]. rewrite <- G. split; discriminate.
  - (* registration *)
    rewrite app_nil_r in LG.
    assert (KP : forall u i, kept (set_phase ph t (GReg id cb) u) i <-> kept (ph u) i).
    { intros u i. here t u; [|tauto]. rewrite <- G. unfold kept. split; intros [A|[c A]]; inversion A; subst; eauto. }
    assert (KT : kept (ph t) id) by (left; auto).
    assert (O : forall i c, owner st' (set_phase ph t (GReg id cb)) i c <-> (i = id /\ c = cb) \/ (i <> id /\ owner st ph i c)).
    { intros i c. unfold owner. rewrite LG. split.
      - intros [I|[u A]].
        + right. split; [|auto]. intros ->. apply (e_iss _ _ E) in I. exact (e_kept _ _ E t id KT I).
        + revert A. here t u; [intros A; inversion A; auto|]. intros A. right. split; [|right; eauto]. intros ->.
          eapply (e_dist _ _ E u t id); [assumption|right; eauto|exact KT].
      - intros [[-> ->]|[N [I|[u A]]]]; [right; exists t; apply sp_same|left; exact I|]. right. exists u. here t u; [congruence|exact A]. }
    constructor; rewrite <- ?S', ?LG; cbn [nextRequestID callbacks m_set]; try old E.
    + intros u. here t u; [exact PT|apply PL].
    + intros u v i U A B. rewrite KP in A, B. exact (e_dist _ _ E u v i U A B).
    + intros u i A. rewrite KP in A. exact (e_kept _ _ E u i A).
    + apply dict_set_nodup, E.
    + intros i c D. rewrite dict_get_set in D. apply O. destruct (Z.eqb_spec id i) as [->|N]; [inversion D; auto|]. right. split; [congruence|]. apply (e_own _ _ E), D.
    + intros i n msg I. apply O. pose proof (e_inv _ _ E _ _ _ I) as W. destruct (Z.eq_dec i id) as [->|N]; [|auto]. exfalso.
      destruct W as [W|[u A]]; [apply (e_iss _ _ E) in W; exact (e_kept _ _ E t id KT W)|].
      destruct (Nat.eq_dec u t) as [->|U]; [congruence|]. eapply (e_dist _ _ E u t id); [assumption|right; eauto|exact KT].
    + intros i c W F. rewrite dict_get_set. apply O in W as [[-> ->]|[N W]]; [rewrite Z.eqb_refl; reflexivity|].
      destruct (Z.eqb_spec id i); [congruence|]. apply (e_fin _ _ E); assumption.
  - assert (HH : handed_out [ECall a r] = []) by (unfold handed_out; cbn [flat_map]; rewrite I2; reflexivity).
    assert (HI : issued [ECall a r] = []) by (unfold issued; cbn [flat_map]; rewrite I1; reflexivity).
    eapply (einv_same st ph); eauto; try (rewrite <- S'; reflexivity); try (intros ? ? ? [A|[]]; discriminate); try (intros u; here t u; [exact Logic.I|apply PL]).
    + intros u id'. here t u; [|tauto]. rewrite <- G. unfold kept. split; intros [A|[? A]]; discriminate.
    + intros u id' cb. here t u; [|tauto]. rewrite <- G. split; discriminate.
  - (* end of a call that assigned an id but is no registered request *)
    assert (HI : issued [ECall a r] = []) by (unfold issued; cbn [flat_map]; rewrite I1; reflexivity).
    assert (KT : kept (ph t) id) by (left; auto).
    assert (HH : handed_out [ECall a r] = [] \/ handed_out [ECall a r] = [id]) by (unfold handed_out; cbn [flat_map]; destruct I2 as [-> | ->]; [left|right]; reflexivity).
    assert (O : forall i c, owner st' (set_phase ph t GIdle) i c <-> owner st ph i c).
    { intros i c. unfold owner. rewrite LG, issued_app, HI, app_nil_r. split; intros [I|[u A]]; auto; right; exists u.
      - revert A. here t u; [discriminate|auto].
      - here t u; [congruence|exact A]. }
    assert (KP : forall u i, kept (set_phase ph t GIdle u) i -> u <> t /\ kept (ph u) i).
    { intros u i. here t u; [intros [A|[? A]]; discriminate|auto]. }
    constructor; rewrite <- ?S', ?LG, ?handed_app, ?issued_app, ?HI, ?app_nil_r; try old E.
    + intros u. here t u; [exact Logic.I|apply PL].
    + intros u v i U A B. apply KP in A, B. exact (e_dist _ _ E u v i U (proj2 A) (proj2 B)).
    + destruct HH as [-> | ->]; [rewrite app_nil_r; apply E|]. apply nodup_snoc; [apply E|]. exact (e_kept _ _ E t id KT).
    + intros i I. apply in_app_or in I as [I|I]; [apply (e_lt _ _ E), I|]. destruct HH as [HH|HH]; rewrite HH in I; [contradiction|]. apply in_single in I as ->. exact PT.
    + intros u i A I. apply KP in A as [U A]. apply in_app_or in I as [I|I]; [exact (e_kept _ _ E u i A I)|]. destruct HH as [HH|HH]; rewrite HH in I; [contradiction|].
      apply in_single in I as ->. exact (e_dist _ _ E u t id U A KT).
    + intros i c I. apply in_or_app. left. eapply e_iss; eassumption.
    + intros i c D. apply O, (e_own _ _ E), D.
    + intros i n msg I. apply O. apply in_app_or in I as [I|[I|[]]]; [eapply e_inv; eassumption|discriminate].
    + intros i c W F. apply O in W. rewrite normal_app in F. apply (e_fin _ _ E); [assumption|]. lia.
  - (* end of a request *)
    assert (HI : issued [ECall a r] = [(id, cb)]) by (unfold issued; cbn [flat_map]; rewrite I1; reflexivity).
    assert (HH : handed_out [ECall a r] = [id]) by (unfold handed_out; cbn [flat_map]; rewrite I2; reflexivity).
    assert (KT : kept (ph t) id) by (right; eauto).
    assert (KP : forall u i, kept (set_phase ph t GIdle u) i -> u <> t /\ kept (ph u) i).
    { intros u i. here t u; [intros [A|[? A]]; discriminate|auto]. }
    assert (O : forall i c, owner st' (set_phase ph t GIdle) i c <-> owner st ph i c).
    { intros i c. unfold owner. rewrite LG, issued_app, HI. split.
      - intros [I|[u A]]; [apply in_app_or in I as [I|I]; [auto|apply in_single in I; inversion I; subst; right; exists t; auto]|].
        right; exists u. revert A. here t u; [discriminate|auto].
      - intros [I|[u A]]; [left; apply in_or_app; auto|]. destruct (Nat.eq_dec u t) as [->|U]; [left; apply in_or_app; right; apply in_single; congruence|].
        right. exists u. rewrite sp_other by assumption. exact A. }
    constructor; rewrite <- ?S', ?LG, ?handed_app, ?issued_app, ?HI, ?HH; try old E.
    + intros u. here t u; [exact Logic.I|apply PL].
    + intros u v i U A B. apply KP in A, B. exact (e_dist _ _ E u v i U (proj2 A) (proj2 B)).
    + apply nodup_snoc; [apply E|]. exact (e_kept _ _ E t id KT).
    + intros i I. apply in_app_or in I as [I|I]; [apply (e_lt _ _ E), I|]. apply in_single in I as ->. exact PT.
    + intros u i A I. apply KP in A as [U A]. apply in_app_or in I as [I|I]; [exact (e_kept _ _ E u i A I)|].
      apply in_single in I as ->. exact (e_dist _ _ E u t id U A KT).
    + intros i c I. apply in_app_or in I as [I|I]; apply in_or_app; [left; eapply e_iss; eassumption|right]. apply in_single in I. inversion I; subst. apply in_single; reflexivity.
    + intros i c c' I J.
      assert (K : forall c, In (i, c) (issued (events st) ++ [(id, cb)]) -> owner st ph i c).
      { intros c0 K. apply O. left. rewrite LG, issued_app, HI. exact K. }
      eapply owner_unique; [exact E|apply K, I|apply K, J].
    + intros i c D. apply O, (e_own _ _ E), D.
    + intros i n msg I. apply O. apply in_app_or in I as [I|[I|[]]]; [eapply e_inv; eassumption|discriminate].
    + intros i c W F. apply O in W. rewrite normal_app in F. apply (e_fin _ _ E); [assumption|]. lia.
  - eapply (einv_same st ph); eauto; try (rewrite <- S'; reflexivity); try (apply handed_quiet; assumption); try (apply issued_quiet; assumption); try (intros; apply normal_quiet; assumption);
      try (intros i n msg I; exfalso; eapply quiet_no_invoke; eassumption); try (intros u; here t u; [exact Logic.I|apply PL]).
    + intros u id'. here t u; [|tauto]. rewrite <- G. tauto.
    + intros u id' cb. here t u; [|tauto]. rewrite <- G. tauto.
  - eapply (einv_same st ph); eauto; try (rewrite <- S'; reflexivity); try (intros i k msg' [A|[]]; inversion A; subst; exact Q); try (intros u; here t u; [exact Logic.I|apply PL]).
    + intros u id'. here t u; [|tauto]. rewrite <- G. tauto.
    + intros u id' cb. here t u; [|tauto]. rewrite <- G. tauto.
  - eapply (einv_same st ph); eauto; try (rewrite <- S'; reflexivity); try (intros i k msg' [A|[]]; discriminate); try (intros u; here t u; [exact Logic.I|apply PL]).
    + intros u id'. here t u; [|tauto]. rewrite <- G. tauto.
    + intros u id' cb. here t u; [|tauto]. rewrite <- G. tauto.
  - (* a callback finishes *)
    assert (HH : handed_out (EFinished id r :: q) = []) by (cbn; apply handed_quiet; assumption).
    assert (HI : issued (EFinished id r :: q) = []) by (cbn; apply issued_quiet; assumption).
    assert (K : (r = Ok tt /\ m' = mkMgr (nextRequestID (shared st)) (outbound (shared st)) (dict_del (callbacks (shared st)) id)) \/ m' = shared st /\ (forall c, r = Ok tt -> dict_get (callbacks (shared st)) id = Some c -> False)).
    { unfold after_response in Q1. destruct r as [[]|e]; [destruct (dict_get _ _) eqn:D|]; inversion Q1; subst; auto. right. split; [reflexivity|]. congruence. right. split; [reflexivity|]. discriminate. }
    assert (KP : forall u i, kept (set_phase ph t GIdle u) i <-> kept (ph u) i).
    { intros u i. here t u; [rewrite <- G|]; tauto. }
    assert (O : forall i c, owner st' (set_phase ph t GIdle) i c <-> owner st ph i c).
    { intros i c. unfold owner. rewrite LG, issued_app, HI, app_nil_r. split; intros [I|[u A]]; auto; right; exists u.
      - revert A. here t u; [discriminate|auto].
      - here t u; [congruence|exact A]. }
    assert (NN : nextRequestID m' = nextRequestID (shared st)) by (destruct K as [[_ ->]|[-> _]]; reflexivity).
    assert (NF : forall i, i = id -> r = Ok tt -> normal_finishes i (EFinished id r :: q) <> 0%nat).
    { intros i -> ->. change (EFinished id (Ok tt) :: q) with ([EFinished id (Ok tt)] ++ q). rewrite normal_app. unfold normal_finishes at 1. cbn. rewrite Z.eqb_refl. cbn. lia. }
    constructor; rewrite <- ?S', ?NN, ?LG, ?handed_app, ?issued_app, ?HI, ?HH, ?app_nil_r; try old E.
    + intros u. here t u; [exact Logic.I|apply PL].
    + intros u v i U A B. rewrite KP in A, B. exact (e_dist _ _ E u v i U A B).
    + intros u i A. rewrite KP in A. exact (e_kept _ _ E u i A).
    + destruct K as [[_ ->]|[-> _]]; [apply dict_del_nodup, E|apply E].
    + intros i c D. apply O. apply (e_own _ _ E). destruct K as [[_ ->]|[-> _]]; [|exact D]. cbn in D. rewrite dict_get_del in D by apply E. destruct (id =? i); [discriminate|exact D].
    + intros i n msg I. apply O. apply in_app_or in I as [I|[I|I]]; [eapply e_inv; eassumption|discriminate|]. exfalso. eapply quiet_no_invoke; eassumption.
    + intros i c W F. apply O in W. rewrite normal_app in F. assert (F1 : normal_finishes i (events st) = 0%nat) by lia. pose proof (e_fin _ _ E _ _ W F1) as D.
      destruct K as [[R ->]|[-> _]]; [|exact D]. cbn. rewrite dict_get_del by apply E. destruct (Z.eqb_spec id i) as [->|N]; [|exact D]. exfalso. apply (NF i eq_refl R). lia.
  - assert (HH : handed_out (ETake om dst :: sx ++ qq) = []) by (change (handed_out (sx ++ qq) = []); rewrite handed_app, (handed_quiet qq) by assumption; destruct Q2 as [->|(os & rr & ->)]; reflexivity).
    assert (HI : issued (ETake om dst :: sx ++ qq) = []) by (change (issued (sx ++ qq) = []); rewrite issued_app, (issued_quiet qq) by assumption; destruct Q2 as [->|(os & rr & ->)]; reflexivity).
    eapply (einv_same st ph); eauto; try (rewrite <- S'; reflexivity); try (intros u; here t u; [exact Logic.I|apply PL]).
    + intros i. change (ETake om dst :: sx ++ qq) with ([ETake om dst] ++ sx ++ qq). rewrite !normal_app, (normal_quiet qq) by assumption. destruct Q2 as [->|(os & rr & ->)]; reflexivity.
    + intros i n msg [I|I]; [discriminate|]. apply in_app_or in I as [I|I]; [destruct Q2 as [->|(os & rr & ->)]; [contradiction|destruct I as [I|[]]; discriminate]|]. exfalso. eapply quiet_no_invoke; eassumption.
    + intros u id'. here t u; [|tauto]. rewrite <- G. tauto.
    + intros u id' cb. here t u; [|tauto]. rewrite <- G. tauto.
Qed.

Lemma einv_init : einv tinit (fun _ => GIdle).
Proof.
  constructor; cbn; auto; try lia; try constructor; try discriminate; try contradiction.
  - intros t u id N [A|[? A]]; discriminate.
  - intros id cb [[]|[t A]]; discriminate.
Qed.
Lemma exclusive_prefix sys tr l : exclusive sys (tr ++ [l]) -> exclusive sys tr.
Proof. intros H tr1 tr2 st t u E. eapply H. rewrite E, <- app_assoc. reflexivity. Qed.
Lemma texec_einv sys tr : forall st, exclusive sys tr -> texec sys tr = Some st -> exists ph, einv st ph.
Proof.
  induction tr as [|l tr IH] using rev_ind; intros st X H.
  - inversion H; subst. eexists. apply einv_init.
  - apply tsteps_snoc in H as (st1 & H1 & H2). destruct (IH _ (exclusive_prefix _ _ _ X) H1) as (ph & E).
    eapply einv_step; [exact E| |exact H2]. intros t u. apply (X tr [l] st1 t u eq_refl H1).
Qed.
Lemma ids_unique sys tr st : exclusive sys tr -> texec sys tr = Some st -> NoDup (handed_out (events st)).
Proof. intros X H. destruct (texec_einv _ _ _ X H) as [ph E]. apply E. Qed.
Lemma registered sys tr st id cb : exclusive sys tr -> texec sys tr = Some st -> In (id, cb) (issued (events st)) ->
  normal_finishes id (events st) = 0%nat -> pending (shared st) id cb.
Proof. intros X H I F. destruct (texec_einv _ _ _ X H) as [ph E]. apply (e_fin _ _ E); [left; exact I|exact F]. Qed.
Lemma right_callback sys tr st id cb n msg : exclusive sys tr -> texec sys tr = Some st -> In (id, cb) (issued (events st)) ->
  In (EInvoke id n msg) (events st) -> cb = Cb n.
Proof.
  intros X H I V. destruct (texec_einv _ _ _ X H) as [ph E]. eapply owner_unique; [exact E|left; exact I|eapply e_inv; eassumption].
Qed.

(** ** The queue *)
Lemma move_queue m b g m' g' evs : tmove m b g m' g' evs -> outbound m ++ puts evs = takes evs ++ outbound m' /\ sends evs = flat_map octets_of (takes evs).
Proof.
  intros M. assert (QP : forall q, Forall quiet q -> puts q = [] /\ takes q = [] /\ sends q = []) by (intros q F; apply quiet_nil in F; tauto).
  destruct M as [| |om dst|id|id n|id om dst|id cb|a r I1 I2|id a r I1 I2|id cb a r I1 I2|q Q|id n msg Q|n msg
      |f id r m' r' q Q1 Q2|om dst q sx qq Q1 Q2 Q3 Q4]; try (cbn; rewrite ?app_nil_r; split; reflexivity).
  - destruct (QP _ Q) as (-> & -> & ->). rewrite app_nil_r. split; reflexivity.
  - destruct (QP _ Q2) as (E1 & E2 & E3). cbn. unfold puts, takes, sends in *. rewrite E1, E2, E3, app_nil_r. cbn. split; [|reflexivity].
    unfold after_response in Q1. destruct r; [destruct (dict_get _ _)|]; inversion Q1; reflexivity.
  - destruct (QP _ Q3) as (E1 & E2 & E3). change (ETake om dst :: sx ++ qq) with ([ETake om dst] ++ sx ++ qq). rewrite !puts_app, !takes_app, !sends_app, E1, E2, E3, Q4, Q1.
    assert (E : puts sx = [] /\ takes sx = []) by (destruct Q2 as [->|(os & rr & ->)]; split; reflexivity). destruct E as [-> ->]. cbn. rewrite ?app_nil_r. split; reflexivity.
Qed.
Lemma thread_queue sys tr : forall st, texec sys tr = Some st ->
  puts (events st) = takes (events st) ++ outbound (shared st) /\ sends (events st) = flat_map octets_of (takes (events st)).
Proof.
  induction tr as [|l tr IH] using rev_ind; intros st H.
  - inversion H; subst. split; reflexivity.
  - apply tsteps_snoc in H as (st1 & H1 & H2). destruct (IH _ H1) as [A B]. destruct (texec_rinv _ _ _ H1) as (ph & L & s & R).
    destruct (tstep_move _ _ _ _ _ (r_ph _ _ _ _ _ R) H2) as (t & th' & g' & evs & M & T & LG & P'). apply events_app in LG. apply move_queue in M as [C D].
    rewrite LG, puts_app, takes_app, sends_app, A, B, D, flat_map_app. split; [|reflexivity]. rewrite <- !app_assoc. f_equal. exact C.
Qed.

(** ** Losing ids *)
Definition assign_event (t : nat) (i : Z) : nat * event := (t, ECall AAssign (Ok (RVal (VPyInt i)))).
Lemma assign_alone sys m ths lg t : active (ths t) = None -> user_runs (frames (ths t)) = true -> exists ths',
  tsteps sys (mkTState m ths lg) (alone t AAssign 3) =
    Some (mkTState (mkMgr (nextRequestID m + 1) (outbound m) (callbacks m)) ths' (lg ++ [assign_event t (nextRequestID m)])) /\ same_threads ths' ths.
Proof.
  intros A U. unfold alone. cbn [repeat app tsteps tstep]. rewrite A, U. cbn [pcall pmap pbind passignRequestID].
  repeat (progress (cbn [tsteps tstep active pstep map frames]; rewrite ?set_same, ?app_nil_r)).
  eexists. split; [reflexivity|]. intros u. destruct (Nat.eq_dec u t) as [->|N]; [rewrite set_same|rewrite !set_other by assumption; reflexivity].
  destruct (ths t) as [x y]. cbn in A. subst. reflexivity.
Qed.
Lemma assigns_alone sys t k : forall m ths lg, active (ths t) = None -> user_runs (frames (ths t)) = true -> exists ths',
  tsteps sys (mkTState m ths lg) (concat (repeat (alone t AAssign 3) k)) =
    Some (mkTState (mkMgr (nextRequestID m + Z.of_nat k) (outbound m) (callbacks m)) ths'
                   (lg ++ map (fun j => assign_event t (nextRequestID m + Z.of_nat j)) (seq 0 k))) /\ same_threads ths' ths.
Proof.
  induction k as [|k IH]; intros m ths lg A U.
  - exists ths. cbn. rewrite app_nil_r, Z.add_0_r. destruct m; split; [reflexivity|intros u; reflexivity].
  - cbn [repeat concat]. destruct (assign_alone sys m ths lg t A U) as (ths1 & E1 & S1). rewrite tsteps_app, E1.
    destruct (IH (mkMgr (nextRequestID m + 1) (outbound m) (callbacks m)) ths1 (lg ++ [assign_event t (nextRequestID m)])) as (ths2 & E2 & S2).
    { rewrite S1; exact A. } { rewrite S1; exact U. }
    exists ths2. rewrite E2. cbn [nextRequestID outbound callbacks]. split; [|intros u; rewrite S2; apply S1].
    f_equal. f_equal; [f_equal; lia|]. rewrite <- app_assoc. f_equal. cbn [seq map app]. rewrite Z.add_0_r. f_equal. rewrite <- seq_shift, map_map. apply map_ext. intros j. f_equal. lia.
Qed.
Definition race (n : nat) : list tlabel :=
  [TBegin 1 AAssign; TAccess 1; TAccess 1] ++ concat (repeat (alone 0 AAssign 3) n) ++ [TAccess 1; TEnd 1] ++
  concat (repeat (alone 0 AAssign 3) (n - 1)).
Lemma handed_assigns t f l : handed_out (map snd (map (fun j : nat => assign_event t (f j)) l)) = map f l.
Proof. induction l as [|x l IH]; [reflexivity|]. cbn [map]. cbn. f_equal. exact IH. Qed.
Lemma race_runs sys n : (1 <= n)%nat -> exists st, texec sys (race n) = Some st /\
  handed_out (events st) = map Z.of_nat (seq 0 n) ++ map Z.of_nat (seq 0 n).
Proof.
  intros N1. unfold texec, race. rewrite tsteps_app. 
  set (ths0 := set_thread (set_thread (set_thread (fun _ => new_thread) 1 (mkThread (Some (AAssign, pcall (flav sys) AAssign)) [])) 1
       (mkThread (Some (AAssign, PAgain (fun n => PStore (n + 1) (PRet (Ok (RVal (VPyInt 0))))))) [])) 1 (mkThread (Some (AAssign, PStore 1 (PRet (Ok (RVal (VPyInt 0)))))) [])).
  assert (E0 : tsteps sys tinit [TBegin 1 AAssign; TAccess 1; TAccess 1] = Some (mkTState mgr0 ths0 [])) by reflexivity.
  rewrite E0, tsteps_app.
  destruct (assigns_alone sys 0 n mgr0 ths0 [] eq_refl eq_refl) as (ths1 & E1 & S1). rewrite E1. cbn [app tsteps tstep].
  assert (T1 : ths1 1%nat = mkThread (Some (AAssign, PStore 1 (PRet (Ok (RVal (VPyInt 0)))))) []) by (rewrite S1; reflexivity).
  rewrite T1. cbn [active pstep map frames tsteps tstep]. rewrite app_nil_r. cbn [tsteps tstep]. rewrite set_same. cbn [active frames].
  match goal with |- context [tsteps _ (mkTState ?m ?ths ?lg) _] => destruct (assigns_alone sys 0 (n - 1) m ths lg) as (ths2 & E2 & S2) end.
  { rewrite !set_other by discriminate. rewrite S1. reflexivity. } { rewrite !set_other by discriminate. rewrite S1. reflexivity. }
  rewrite E2. eexists; split; [reflexivity|]. unfold events. cbn [tlog nextRequestID]. rewrite !map_app, !handed_app, !handed_assigns. cbn [nextRequestID mgr0].
  rewrite <- app_assoc. f_equal. destruct n as [|n]; [lia|]. cbn [map snd seq]. rewrite Nat.sub_succ, Nat.sub_0_r.
  cbn [handed_out flat_map handed_by app]. change (Z.of_nat 0) with 0. f_equal. rewrite <- seq_shift, map_map. apply map_ext. intros; lia.
Qed.

(** ** Only one thread makes calls *)
Lemma active_begun sys t tr : forall st, texec sys tr = Some st -> active (threads st t) <> None -> exists a, In (TBegin t a) tr.
Proof.
  induction tr as [|l tr IH] using rev_ind; intros st H A.
  - inversion H; subst. exfalso. apply A. reflexivity.
  - apply tsteps_snoc in H as (st1 & H1 & H2). 
    assert (X : active (threads st1 t) <> None -> exists a, In (TBegin t a) (tr ++ [l])).
    { intros B. destruct (IH _ H1 B) as [a I]. exists a. apply in_or_app; auto. }
    destruct st1 as [m ths lg]. cbn [threads] in *. destruct l as [u a|u|u|u l]; cbn [tstep] in H2.
    + destruct (active (ths u)); [discriminate|]. destruct (user_runs _); [|discriminate]. inversion H2; subst; cbn [threads] in *.
      destruct (Nat.eq_dec t u) as [->|N]; [exists a; apply in_or_app; right; left; reflexivity|]. rewrite set_other in A by assumption. auto.
    + destruct (active (ths u)) as [[a p]|] eqn:B; [|discriminate]. destruct p; try discriminate; cbn in H2; inversion H2; subst; cbn [threads] in *;
        (destruct (Nat.eq_dec t u) as [->|N]; [apply X; congruence|rewrite set_other in A by assumption; auto]).
    + destruct (active (ths u)) as [[a p]|] eqn:B; [|discriminate]. destruct p; try discriminate; inversion H2; subst; cbn [threads] in *.
      destruct (Nat.eq_dec t u) as [->|N]; [apply X; congruence|rewrite set_other in A by assumption; auto].
    + destruct (active (ths u)) eqn:B; [discriminate|]. destruct (is_call l); [discriminate|]. destruct (step _ _ _); [|discriminate]. inversion H2; subst; cbn [threads] in *.
      destruct (Nat.eq_dec t u) as [->|N]; [rewrite set_same in A; exfalso; apply A; reflexivity|rewrite set_other in A by assumption; auto].
Qed.
Lemma one_caller_exclusive sys tr t : (forall u a, In (TBegin u a) tr -> u = t) -> exclusive sys tr.
Proof.
  intros C tr1 tr2 st u v E H A B.
  assert (K : forall w, assigning (threads st w) -> w = t).
  { intros w W. destruct (active_begun sys w tr1 st H) as [a I]; [intros Z; unfold assigning in W; rewrite Z in W; exact W|]. eapply C. rewrite E. apply in_or_app. left. exact I. }
  rewrite (K u A), (K v B). reflexivity.
Qed.
