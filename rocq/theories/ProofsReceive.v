(** * Proofs about receiving: what each manager does with each kind of message. *)
From Coq Require Import ZArith List Bool Lia ZifyBool ZifyNat Sorted.
From Verif Require Import PyBase Classes Values Codec Manager SpecManager ProofsManager ProofsHistory.
From Verif Require Import SpecBER SpecSMI SpecTree SpecWire SpecMsg ProofsTree ProofsDecode ProofsWire ProofsMsg.
Import ListNotations.
Open Scope Z_scope.

(** ** The classes of decoded objects come from the table *)
Inductive regd (reg : registry) : val -> Prop :=
| regd_seq t l : reg_get reg t = Some CSequence -> Forall (regd reg) l -> regd reg (VSeq CSequence l)
| regd_other v t c : reg_get reg t = Some c -> class_of v = Some c -> c <> CSequence -> regd reg v.

Lemma pdu_init_class c a b d e v : pdu_init c a b d e = Ok v -> class_of v = Some c.
Proof.
  unfold pdu_init. destruct (issubclass c CPDU_v2); unfold pdu_v2_init, pdu_v1_init; intros H.
  - destruct (gt_max_bindings d) as [[|]|]; cbn [bind] in H; try discriminate H. cbv iota in H. inv_bind H. inversion H; reflexivity.
  - inv_bind H. inversion H; reflexivity.
Qed.
Lemma bulkpdu_init_class c a b d e v : bulkpdu_init c a b d e = Ok v -> class_of v = Some c.
Proof.
  unfold bulkpdu_init; intros H.
  destruct (gt_max_bindings b) as [[|]|]; cbn [bind] in H; try discriminate H. cbv iota in H.
  destruct (gt_max_bindings d) as [[|]|]; cbn [bind] in H; try discriminate H. cbv iota in H. inv_bind H. inversion H; reflexivity.
Qed.
Lemma decodeContents_class dec c data v : decodeContents dec c data = Ok v -> class_of v = Some c.
Proof.
  unfold decodeContents. destruct (decode_method c) as [dm|] eqn:M; [|discriminate]. destruct dm; intros H; inv_bind H.
  - inversion H; reflexivity.
  - inversion H; reflexivity.
  - assert (c = CObjectID) by (destruct c; vm_compute in M; congruence). inversion H; subst. reflexivity.
  - inversion H; reflexivity.
  - inversion H; reflexivity.
  - inversion H; reflexivity.
  - inversion H; reflexivity.
  - unfold pdu_of_objects in H. destruct a as [|o0 [|o1 [|o2 [|o3 [|]]]]]; try discriminate. inv_bind H. eapply pdu_init_class; exact H.
  - assert (c = CTrapPDU) by (destruct c; vm_compute in M; congruence). subst.
    unfold trappdu_of_objects in H. destruct a as [|o0 [|o1 [|o2 [|o3 [|o4 [|o5 [|]]]]]]]; try discriminate. inv_bind H. inversion H; reflexivity.
  - unfold bulkpdu_of_objects in H. destruct a as [|o0 [|o1 [|o2 [|o3 [|]]]]]; try discriminate. inv_bind H. eapply bulkpdu_init_class; exact H.
Qed.
Lemma decode_regd reg depth : forall s l, decode reg depth s = Ok l -> Forall (regd reg) l.
Proof.
  induction depth as [|d IH]; intros s l; [discriminate|]. cbn [decode].
  enough (G : forall fuel s l, decode_loop reg (decode reg d) fuel s = Ok l -> Forall (regd reg) l) by apply G.
  clear s l. induction fuel as [|fuel IF]; intros s l; destruct s as [|b s]; cbn [decode_loop]; intros H; try discriminate; try (inversion H; constructor).
  destruct (decode_one reg (decode reg d) (b :: s)) as [[o rest]|] eqn:O; cbn [bind] in H; [|discriminate].
  destruct (decode_loop reg (decode reg d) fuel rest) as [os|] eqn:L; cbn [bind] in H; [|discriminate]. inversion H; subst.
  constructor; [|eapply IF; exact L]. unfold decode_one in O.
  destruct (decodeTag (b :: s)) as [[tag s1]|]; cbn [bind] in O; [|discriminate].
  destruct (decodeLength s1) as [[len s2]|]; cbn [bind] in O; [|discriminate].
  destruct (reg_get reg tag) as [c|] eqn:R; [|discriminate].
  destruct (decodeContents (decode reg d) c (ztake len s2)) as [v|] eqn:D; cbn [bind] in O; [|discriminate]. inversion O; subst.
  destruct (cls_eq_dec c CSequence) as [->|N].
  - unfold decodeContents in D. change (decode_method CSequence) with (Some DSequence) in D. cbv iota in D. inv_bind D. inversion D; subst.
    eapply regd_seq; [exact R|]. eapply IH; exact E.
  - eapply regd_other; [exact R| |exact N]. eapply decodeContents_class; exact D.
Qed.

Lemma tree_of_seq v k ts : tree_of v = Some (TSeq k ts) -> exists c l, v = VSeq c l /\ kind_of c = Some k /\ trees_of l = Some ts /\ seq_kind k = true.
Proof.
  destruct v as [| | | | c z|c w|[|]|c|c l]; cbn; try discriminate.
  - destruct (kind_of c) as [k'|]; [|discriminate]. destruct (int_kind k'); discriminate.
  - destruct w; try discriminate. destruct (kind_of c) as [k'|]; [|discriminate]. destruct (oct_kind k'); discriminate.
  - destruct (kind_of c) as [k'|]; [|discriminate]. destruct (null_kind k'); discriminate.
  - intros H. exists c, l. destruct (kind_of c) as [k'|] eqn:K; [|discriminate]. destruct (seq_kind k') eqn:SK; [|discriminate].
    change ((fix go (l : list val) : option (list tree) :=
                   match l with
                   | [] => Some []
                   | x :: r => match tree_of x, go r with Some a, Some b => Some (a :: b) | _, _ => None end
                   end) l) with (trees_of l) in H.
    destruct (trees_of l) as [ts'|]; [|discriminate]. inversion H; subst. auto.
Qed.
Lemma tree_of_int v k z : tree_of v = Some (TInt k z) -> exists c, v = VInt c z /\ kind_of c = Some k.
Proof.
  destruct v as [| | | | c x|c w|[|]|c|c l]; cbn; try discriminate.
  - destruct (kind_of c) as [k'|] eqn:K; [|discriminate]. destruct (int_kind k'); [|discriminate]. intros H; inversion H; subst. eauto.
  - destruct w; try discriminate. destruct (kind_of c) as [k'|]; [|discriminate]. destruct (oct_kind k'); discriminate.
  - destruct (kind_of c) as [k'|]; [|discriminate]. destruct (null_kind k'); discriminate.
  - destruct (kind_of c) as [k'|]; [|discriminate]. destruct (seq_kind k'); [|discriminate].
    match goal with |- context [match ?x with Some _ => _ | None => _ end] => destruct x end; discriminate.
Qed.

(** ** Messages off the wire *)
Lemma regd_plain cfg k l : kind_of k = Some KSequence -> regd (reg_of cfg) (VSeq k l) -> Forall (regd (reg_of cfg)) l.
Proof.
  intros K R. inversion R as [t l' G F|v t c G C N]; subst; [assumption|]. cbn in C. injection C as ->.
  exfalso. destruct c; cbn in K; try discriminate K; try congruence; clear -G;
  destruct cfg; cbn in G;
  repeat match type of G with (if ?b then _ else _) = _ => destruct b; try discriminate G end; discriminate G.
Qed.
Lemma message_off_wire cfg strict ver com pdu os : wire strict (message_tree ver com pdu) os -> readable cfg pdu ->
  exists cv v1 v2, tree_of v1 = Some (TOct KOctetString com) /\ tree_of v2 = Some pdu /\ regd (reg_of cfg) v2 /\
  forall mc depth, (S (height pdu) <= depth)%nat -> message_decode (reg_of cfg) depth mc (DStr os) = Ok (mkMsg mc (VInt cv ver) v1 v2 []).
Proof.
  intros W R.
  destruct (interop cfg strict _ _ W) as (w & Tw & D).
  { apply readable_seq. split; [|exact I]. constructor; [exact I|]. constructor; [reflexivity|]. constructor; [exact R|constructor]. }
  apply tree_seq_inv in Tw as (k & l & -> & K & _ & T).
  apply trees_inv_cons in T as (v0 & l0 & -> & T0 & T). apply trees_inv_cons in T as (v1 & l1 & -> & T1 & T).
  apply trees_inv_cons in T as (v2 & l2 & -> & T2 & T). apply trees_inv_nil in T as ->.
  apply tree_of_int in T0 as (cv & -> & _).
  assert (D' : forall depth, (S (height pdu) <= depth)%nat -> decode (reg_of cfg) depth os = Ok [VSeq k [VInt cv ver; v1; v2]]).
  { intros depth Hd. apply D. pose proof (height_pos pdu). unfold message_tree. cbn [height fold_right]. lia. }
  exists cv, v1, v2. split; [assumption|]. split; [assumption|]. split.
  - specialize (D' _ (le_n _)). apply decode_regd in D'. inversion D' as [|? ? RO _]; subst.
    apply regd_plain in RO; [|assumption]. inversion RO as [|? ? _ F1]; subst. inversion F1 as [|? ? _ F2]; subst. inversion F2; assumption.
  - intros mc depth Hd. unfold message_decode, decode_data. rewrite D' by assumption. reflexivity.
Qed.

(** The objects that stand for PDUs in a received message. *)
Lemma regd_class cfg c l : regd (reg_of cfg) (VSeq c l) -> c = CSequence \/ exists t, reg_get (reg_of cfg) t = Some c.
Proof. intros R. inversion R as [t l' G F|v t c' G C N]; subst; [auto|]. cbn in C. injection C as ->. eauto. Qed.
Lemma reg_range cfg t c : reg_get (reg_of cfg) t = Some c ->
  In c [CInteger; COctetString; CNull; CObjectID; CSequence; CIPAddress; CCounter; CGuage; CTimeTicks; COpaque; CGet; CGetNext; CResponse; CSet; CTrapPDU;
        CInteger32; CCounter32; CGuage32; CCounter64; CResponse_v2; CGetBulk; CInform; CTrapV2; CReport; CNoSuchObject; CNoSuchInstance; CEndOfMibView] /\
  (cfg = Upto1905 -> c <> CResponse).
Proof.
  intros G. destruct cfg; cbn in G;
  repeat match type of G with (if ?b then _ else _) = _ => destruct b; [injection G as <-; split; [cbn; tauto|intros; discriminate]|] end; discriminate G.
Qed.
Lemma request_object cfg k r e i bs v : request_kind k = true -> tree_of v = Some (request_tree k r e i bs) -> regd (reg_of cfg) v ->
  exists c kr rest, v = VSeq c (VInt kr r :: rest) /\ issubclass c CPDU = true /\ issubclass c CTrapPDU = false /\
    (cfg = Upto1905 -> issubclass c CPDU_v2 = match k with KResponse | KInform | KTrapV2 | KReport => true | _ => false end).
Proof.
  intros K T R. unfold request_tree in T. apply tree_of_seq in T as (c & l & -> & Kc & T & _).
  apply trees_inv_cons in T as (v0 & l0 & -> & T0 & _). apply tree_of_int in T0 as (kr & -> & _).
  exists c, kr, l0. split; [reflexivity|].
  assert (RC : In c [CGet; CGetNext; CResponse; CSet; CResponse_v2; CInform; CTrapV2; CReport] /\ (cfg = Upto1905 -> c <> CResponse)).
  { apply regd_class in R as [->|(t & G)]; [cbn in Kc; inversion Kc; subst; discriminate|].
    apply reg_range in G as [G N]. split; [|assumption]. clear N.
    cbn in G; repeat (destruct G as [<-|G]; [cbn in Kc; inversion Kc; subst; try discriminate K; cbn; tauto|]). destruct G. }
  destruct RC as [RC NR]. cbn in RC.
  repeat (destruct RC as [<-|RC]; [cbn in Kc; inversion Kc; subst k; repeat split; try reflexivity; intros U; exfalso; apply (NR U); reflexivity|]).
  destruct RC.
Qed.
Lemma trap_object cfg a b c0 d e f v : tree_of v = Some (TSeq KTrapV1 [a; b; c0; d; e; f]) -> regd (reg_of cfg) v ->
  exists l, v = VSeq CTrapPDU l.
Proof.
  intros T R. apply tree_of_seq in T as (c & l & -> & Kc & T & _). exists l.
  destruct c; cbn in Kc; try discriminate Kc. reflexivity.
Qed.

(** ** Stacks *)
Inductive wfs : list frame -> Prop :=
| wfs_nil : wfs []
| wfs_user f stk : (f = FTrap \/ exists id, f = FResp id) -> user_runs stk = true -> wfs stk -> wfs (f :: stk)
| wfs_poll f stk : (f = FTrap \/ exists id, f = FResp id) -> (user_runs stk = true \/ exists rest, stk = FRun Polling :: rest) -> wfs stk -> wfs (f :: FRead :: stk)
| wfs_empty rest : wfs (FRun Polling :: rest) -> wfs (FEmpty :: FRun Polling :: rest)
| wfs_run p stk : user_runs stk = true -> wfs stk -> wfs (FRun p :: stk).
Ltac badcb := exfalso; match goal with X : ?f = FTrap \/ (exists _, _) |- _ => destruct X as [?|[? ?]]; discriminate end.
Lemma wfs_run_inv p stk : wfs (FRun p :: stk) -> user_runs stk = true /\ wfs stk.
Proof. intros H. inversion H; subst; auto; badcb. Qed.
Lemma loop_empty_wfs sys m rest lg : user_runs rest = true -> wfs rest -> wfs (stack (loop_empty sys m rest lg)).
Proof.
  intros U W. unfold loop_empty, run_raises. destruct (queueEmpty sys) as [[|n]|]; cbn [stack]; auto.
  - apply wfs_empty, wfs_run; assumption.
  - apply wfs_run; assumption.
Qed.
Lemma poll_returns_wfs sys m r stk lg : wfs stk -> wfs (stack (poll_returns sys m r stk lg)).
Proof.
  intros W. unfold poll_returns. destruct stk as [|[id| | | |p] rest]; cbn [stack]; auto.
  apply wfs_run_inv in W as [U W]. assert (R : wfs rest) by assumption.
  destruct r as [[]|e]; [cbn [stack]; apply wfs_run; assumption|].
  destruct e, (flav sys); cbn [stack run_raises]; auto. apply loop_empty_wfs; assumption.
Qed.
Lemma receive_returns_wfs sys m r below lg f : (f = FTrap \/ exists id, f = FResp id) -> wfs (f :: below) -> wfs (stack (receive_returns sys m r below lg)).
Proof.
  intros F W. inversion W; subst.
  - unfold receive_returns. destruct below as [|[id| | | |p] rest]; cbn [stack]; auto. discriminate.
  - cbn [receive_returns]. apply poll_returns_wfs. assumption.
  - badcb.
  - badcb.
Qed.
Lemma receiveData_msg sys m depth d a om : receiveData sys m depth d = (a, om) -> om = None -> exists r, a = Done r.
Proof. unfold receiveData. destruct (message_decode _ _ _ d); intros H ->; inversion H; eauto. Qed.
Lemma receive_called_wfs sys m depth d stk below lg : wfs stk ->
  (below = stk /\ user_runs stk = true \/ below = FRead :: stk /\ (user_runs stk = true \/ exists rest, stk = FRun Polling :: rest)) ->
  wfs (stack (receive_called sys m depth d below lg)).
Proof.
  intros W B. unfold receive_called.
  assert (C : forall f, (f = FTrap \/ exists id, f = FResp id) -> wfs (f :: below)).
  { intros f F. destruct B as [[-> U]|[-> U]]; [apply wfs_user|apply wfs_poll]; assumption. }
  destruct (receiveData sys m depth d) as [a om] eqn:R. pose proof (receiveData_msg _ _ _ _ _ _ R) as N.
  destruct a as [r|id n|n].
  - eapply receive_returns_wfs; [left; reflexivity|apply C; auto].
  - destruct om as [msg|]; [cbn [stack]; apply C; eauto|]. destruct (N eq_refl); discriminate.
  - destruct om as [msg|]; [cbn [stack]; apply C; eauto|]. destruct (N eq_refl); discriminate.
Qed.
Lemma poll_called_wfs sys m i stk lg : wfs stk -> (user_runs stk = true \/ exists rest, stk = FRun Polling :: rest) -> wfs (stack (poll_called sys m i stk lg)).
Proof.
  intros W U. destruct i; cbn [poll_called]; try (apply poll_returns_wfs; assumption).
  apply receive_called_wfs with (stk := stk); auto.
Qed.
Lemma send_called_wfs sys m r rest lg : user_runs rest = true -> wfs rest -> wfs (stack (send_called sys m r rest lg)).
Proof.
  intros U W. unfold send_called.
  destruct (outbound m) as [|[om dst] q]; [apply loop_empty_wfs; assumption|].
  assert (F : forall e m0 lg0, wfs (stack (match e with QueueEmpty => loop_empty sys m0 rest lg0 | _ => run_raises m0 e rest lg0 end))).
  { intros e m0 lg0. destruct e; cbn [run_raises stack]; auto. apply loop_empty_wfs; assumption. }
  cbv zeta. destruct (match om with None => _ | _ => _ end) as [os|e]; [|apply F].
  destruct (sendto (trans sys) r) as [[]|e]; [|apply F]. cbn [stack]. destruct (flav sys); apply wfs_run; assumption.
Qed.
Lemma step_wfs sys st l st' : wfs (stack st) -> step sys st l = Some st' -> wfs (stack st').
Proof.
  destruct st as [m stk lg]. cbn [stack]. intros W H. destruct l as [a|depth d src|i| |r| |e]; cbn [step] in H.
  - destruct (user_runs stk) eqn:U; [|discriminate]. destruct (do_call (flav sys) a m) as [m' r']. injection H as <-. exact W.
  - destruct (user_runs stk) eqn:U; [|discriminate]. injection H as <-. apply receive_called_wfs with (stk := stk); auto.
  - assert (G : st' = poll_called sys m i stk lg /\ (user_runs stk = true \/ exists rest, stk = FRun Polling :: rest)).
    { destruct stk as [|[| | | |[|]] ?]; cbn in H; inversion H; eauto. }
    destruct G as [-> U]. apply poll_called_wfs; assumption.
  - destruct (user_runs stk) eqn:U; [|discriminate]. injection H as <-. cbn [stack]. apply wfs_run; assumption.
  - destruct stk as [|[| | | |[|]] rest]; try discriminate. injection H as <-. apply wfs_run_inv in W as [U W]. apply send_called_wfs; assumption.
  - destruct stk as [|[id| | | |p] rest]; try discriminate.
    + destruct (after_response (flav sys) m id (Ok tt)). injection H as <-. eapply receive_returns_wfs; [right; eexists; reflexivity|exact W].
    + injection H as <-. eapply receive_returns_wfs; [left; reflexivity|exact W].
    + injection H as <-. inversion W; subst; [badcb|badcb|assumption].
  - destruct stk as [|[id| | | |p] rest]; try discriminate.
    + destruct (after_response (flav sys) m id (Err e)). injection H as <-. eapply receive_returns_wfs; [right; eexists; reflexivity|exact W].
    + injection H as <-. eapply receive_returns_wfs; [left; reflexivity|exact W].
    + destruct rest as [|[| | | |p] rest]; try discriminate. injection H as <-. cbn [run_raises stack].
      inversion W; subst; [badcb|]. apply wfs_run_inv in H0 as [_ H0]. assumption.
Qed.
Lemma exec_wfs sys tr st : exec sys tr = Some st -> wfs (stack st).
Proof.
  revert st. induction tr as [|l tr IH] using rev_ind; intros st H.
  - inversion H; subst. constructor.
  - unfold exec in H. apply steps_snoc in H as (st1 & H & S). eapply step_wfs; [apply IH; exact H|exact S].
Qed.
(** A reachable state is never stuck. *)
Lemma exec_progress sys tr st : exec sys tr = Some st ->
  user_runs (stack st) = true \/ exists p rest, stack st = FRun p :: rest.
Proof. intros H. apply exec_wfs in H. destruct (stack st) as [|[| | | |p] rest]; cbn; eauto. inversion H; subst; badcb. Qed.

(** ** Dispatch by kind *)
Lemma tree_class v t : tree_of v = Some t -> exists c, class_of v = Some c /\ kind_of c = Some (top_kind t).
Proof.
  destruct v as [| | | | c x|c w|[l|]|c|c l]; cbn; try discriminate.
  - destruct (kind_of c) as [k|] eqn:K; [|discriminate]. destruct (int_kind k); intros H; inversion H; subst. eauto.
  - destruct w; try discriminate. destruct (kind_of c) as [k|] eqn:K; [|discriminate]. destruct (oct_kind k); intros H; inversion H; subst. eauto.
  - intros H; inversion H; subst. exists CObjectID. auto.
  - destruct (kind_of c) as [k|] eqn:K; [|discriminate]. destruct (null_kind k); intros H; inversion H; subst. eauto.
  - destruct (kind_of c) as [k|] eqn:K; [|discriminate]. destruct (seq_kind k); [|discriminate].
    match goal with |- context [match ?x with Some _ => _ | None => _ end] => destruct x end; intros H; inversion H; subst. eauto.
Qed.
Lemma regd_range cfg v : regd (reg_of cfg) v -> exists t c, class_of v = Some c /\ reg_get (reg_of cfg) t = Some c.
Proof. intros R. inversion R; subst; eauto. exists t, CSequence. auto. Qed.
Lemma dispatch_reaction sys m msg cv ver pdu : importable sys -> m_version msg = VInt cv ver ->
  tree_of (m_data msg) = Some pdu -> regd (reg_of (imports sys)) (m_data msg) ->
  dispatch sys m msg = match reaction_to (flav sys) ver (top_kind pdu) with
                       | Answer => response_action m (m_data msg)
                       | Trap => trap_action sys
                       | Ignore => Done (Ok tt)
                       | Refuse e => Done (Err e)
                       end.
Proof.
  intros Im V T R. destruct (tree_class _ _ T) as (c & C & K). destruct (regd_range _ _ R) as (t & c' & C' & G).
  rewrite C in C'. injection C' as <-. apply reg_range in G as [G NR].
  assert (P : isinstance (m_data msg) CPDU = request_kind (top_kind pdu) /\
              isinstance (m_data msg) CTrapPDU = match top_kind pdu with KTrapV1 => true | _ => false end /\
              (imports sys = Upto1905 -> isinstance (m_data msg) CPDU_v2 = match top_kind pdu with KResponse | KInform | KTrapV2 | KReport => true | _ => false end)).
  { unfold isinstance. rewrite C. clear -K G NR. cbn in G.
    repeat (destruct G as [<-|G]; [cbn in K; injection K as <-; split; [reflexivity|split; [reflexivity|]]; intros U; try reflexivity; exfalso; apply (NR U); reflexivity|]).
    destruct G. }
  destruct P as (P1 & P2 & P3). unfold dispatch. rewrite V.
  change (py_eq (VInt cv ver) (VPyInt 0)) with (@Ok bool (ver =? 0)). change (py_eq (VInt cv ver) (VPyInt 1)) with (@Ok bool (ver =? 1)).
  cbn iota. rewrite P1, P2. unfold reaction_to, plain_reaction. unfold importable in Im. destruct (flav sys) eqn:F.
  - destruct (ver =? 0); [|reflexivity]. destruct (top_kind pdu); reflexivity.
  - destruct (ver =? 0); [destruct (top_kind pdu); reflexivity|]. destruct (ver =? 1); [destruct (top_kind pdu); reflexivity|reflexivity].
  - rewrite (P3 Im). destruct (ver =? 0); [destruct (top_kind pdu); reflexivity|]. destruct (ver =? 1); [destruct (top_kind pdu); reflexivity|reflexivity].
Qed.

(** ** Deliveries *)
Lemma delivery_step sys st l depth d : delivery sys st l depth d -> exists below,
  (below = stack st /\ user_runs (stack st) = true \/ below = FRead :: stack st /\ poll_ready st) /\
  step sys st l = Some (receive_called sys (man st) depth d below (log st)).
Proof.
  destruct st as [m stk lg]. intros D. destruct l as [a|depth' d' src|i| |r| |e]; cbn in D; try contradiction.
  - destruct D as (-> & -> & U). exists stk. cbn. rewrite U. auto.
  - destruct i as [|depth' s src|e]; try contradiction. destruct D as (-> & -> & U).
    exists (FRead :: stk). split; [auto|]. cbn [step]. destruct U as [U|(rest & E)]; cbn [stack] in *.
    + destruct stk as [|[| | | |[|]] ?]; cbn in U |- *; try discriminate; reflexivity.
    + subst. reflexivity.
Qed.
Lemma asyncore_read_id r : asyncore_read r = r.
Proof. destruct r as [[]|[]]; reflexivity. Qed.
Lemma deliver_done sys st l depth d r om : delivery sys st l depth d -> receiveData sys (man st) depth d = (Done r, om) ->
  r <> Err QueueEmpty -> exists st', step sys st l = Some st' /\ came_back st st' r.
Proof.
  intros D R N. destruct (delivery_step _ _ _ _ _ D) as (below & B & S). rewrite S. eexists; split; [reflexivity|].
  unfold receive_called. rewrite R. unfold came_back.
  assert (U : forall stk, stk = stack st -> user_runs stk = true -> receive_returns sys (man st) r stk (log st) = mkState (man st) stk (log st ++ [EResult r]) /\
              poll_returns sys (man st) r stk (log st) = mkState (man st) stk (log st ++ [EResult r])).
  { intros stk _ U. destruct stk as [|[| | | |] ?]; try discriminate U; split; reflexivity. }
  destruct B as [[-> X]|[-> [X|(rest & X)]]].
  - destruct (U _ eq_refl X) as [E _]. rewrite E. cbn [man stack log]. auto.
  - cbn [receive_returns]. rewrite asyncore_read_id. destruct (U _ eq_refl X) as [_ E]. rewrite E. cbn [man stack log]. auto.
  - cbn [receive_returns]. rewrite asyncore_read_id, X. cbn [poll_returns]. destruct r as [[]|e].
    + cbn [man stack log]. split; [reflexivity|]. right. exists rest. auto.
    + assert (E : (match e with QueueEmpty => match flav sys with FSM => loop_empty sys (man st) rest (log st) | _ => run_raises (man st) e rest (log st) end | _ => run_raises (man st) e rest (log st) end) = run_raises (man st) e rest (log st)).
      { destruct e; try reflexivity. congruence. }
      replace (match e, flav sys with QueueEmpty, FSM => loop_empty sys (man st) rest (log st) | _, _ => run_raises (man st) e rest (log st) end) with (run_raises (man st) e rest (log st)) by (destruct e, (flav sys); congruence).
      cbn [run_raises man stack log]. split; [reflexivity|]. right. exists rest. auto.
Qed.
Lemma deliver_response sys st l depth d id n msg : delivery sys st l depth d -> receiveData sys (man st) depth d = (InvokeResponse id n, Some msg) ->
  exists st', step sys st l = Some st' /\ callback_runs st st' (FResp id) (EInvoke id n msg).
Proof.
  intros D R. destruct (delivery_step _ _ _ _ _ D) as (below & B & S). rewrite S. eexists; split; [reflexivity|].
  unfold receive_called. rewrite R. unfold callback_runs. cbn [man stack log]. destruct B as [[-> _]|[-> _]]; auto.
Qed.
Lemma deliver_trap sys st l depth d n msg : delivery sys st l depth d -> receiveData sys (man st) depth d = (InvokeTrap n, Some msg) ->
  exists st', step sys st l = Some st' /\ callback_runs st st' FTrap (EInvokeTrap n msg).
Proof.
  intros D R. destruct (delivery_step _ _ _ _ _ D) as (below & B & S). rewrite S. eexists; split; [reflexivity|].
  unfold receive_called. rewrite R. unfold callback_runs. cbn [man stack log]. destruct B as [[-> _]|[-> _]]; auto.
Qed.
Lemma guard_outcome f e : e <> SystemExit -> guard f (Err e) = outcome f e.
Proof. destruct f, e; intros; try reflexivity; congruence. Qed.
Lemma outcome_ne f e x : e <> x -> outcome f e <> Err x.
Proof. destruct f; cbn; congruence. Qed.

(** What receiving anything that reads as a message does, and any well-formed message. *)
Definition reads_as (cfg : config) (ver : Z) (com : list Z) (pdu : tree) (os : list Z) : Prop :=
  exists cv v1 v2, tree_of (VInt cv ver) = Some (TInt KInteger ver) /\ tree_of v1 = Some (TOct KOctetString com) /\ tree_of v2 = Some pdu /\ regd (reg_of cfg) v2 /\
  forall mc depth, (S (height pdu) <= depth)%nat -> message_decode (reg_of cfg) depth mc (DStr os) = Ok (mkMsg mc (VInt cv ver) v1 v2 []).
Lemma wire_reads_as cfg strict ver com pdu os : wire strict (message_tree ver com pdu) os -> readable cfg pdu -> reads_as cfg ver com pdu os.
Proof.
  intros W R. destruct (message_reads _ _ _ _ _ _ W R) as (w0 & w1 & w2 & W0 & W1 & W2 & MR).
  destruct (message_off_wire _ _ _ _ _ _ W R) as (cv & v1 & v2 & T1 & T2 & Rg & D). exists cv, v1, v2. split; [|auto].
  specialize (D CMessage _ (le_n _)). specialize (MR CMessage _ (le_n _)). rewrite D in MR. injection MR as <- _ _. exact W0.
Qed.
Lemma receive_read sys m ver com pdu os : importable sys -> reads_as (imports sys) ver com pdu os ->
  exists msg, tree_of (m_version msg) = Some (TInt KInteger ver) /\ tree_of (m_community msg) = Some (TOct KOctetString com) /\ tree_of (m_data msg) = Some pdu /\
  regd (reg_of (imports sys)) (m_data msg) /\
  forall depth, (S (height pdu) <= depth)%nat -> 
  receiveData sys m depth (DStr os) = 
    (match (match reaction_to (flav sys) ver (top_kind pdu) with
            | Answer => response_action m (m_data msg)
            | Trap => trap_action sys
            | Ignore => Done (Ok tt)
            | Refuse e => Done (Err e)
            end) with Done r => Done (guard (flav sys) r) | a => a end, Some msg).
Proof.
  intros Im (cv & v1 & v2 & T0 & T1 & T2 & Rg & D). exists (mkMsg (message_class (flav sys)) (VInt cv ver) v1 v2 []). cbn [m_version m_community m_data].
  repeat split; auto. intros depth Hd. unfold receiveData. rewrite D by exact Hd.
  erewrite dispatch_reaction; try reflexivity; try eassumption.
Qed.
Lemma receive_message sys m strict ver com pdu os : importable sys -> wire strict (message_tree ver com pdu) os -> readable (imports sys) pdu ->
  exists msg, tree_of (m_version msg) = Some (TInt KInteger ver) /\ tree_of (m_community msg) = Some (TOct KOctetString com) /\ tree_of (m_data msg) = Some pdu /\
  regd (reg_of (imports sys)) (m_data msg) /\
  forall depth, (S (height pdu) <= depth)%nat -> 
  receiveData sys m depth (DStr os) = 
    (match (match reaction_to (flav sys) ver (top_kind pdu) with
            | Answer => response_action m (m_data msg)
            | Trap => trap_action sys
            | Ignore => Done (Ok tt)
            | Refuse e => Done (Err e)
            end) with Done r => Done (guard (flav sys) r) | a => a end, Some msg).
Proof. intros Im W R. apply receive_read; [exact Im|]. eapply wire_reads_as; eassumption. Qed.
