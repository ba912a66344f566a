(** * Proofs about the manager as a whole: exceptions of receiveData, exhaustion, the run loop. *)
From Coq Require Import ZArith List Bool Lia ZifyBool ZifyNat Sorted.
From Verif Require Import PyBase Classes Values Codec Manager SpecSMI SpecTree SpecWire SpecMsg SpecManager.
From Verif Require Import ProofsTree ProofsDecode ProofsWire ProofsMsg ProofsManager ProofsHistory ProofsReceive ProofsCalls.
Import ListNotations.
Open Scope Z_scope.

(** ** The exceptions of receiveData before a callback is called *)
Definition decent (e : exn) : Prop := e <> QueueEmpty /\ e <> SystemExit.
Ltac decent := split; discriminate.
Lemma py_index_decent {A} (l : list A) i e : py_index l i = Err e -> decent e.
Proof. unfold py_index. destruct (_ || _); [intros H; injection H as <-; decent|]. destruct (nth_error _ _); [discriminate|]. intros H; injection H as <-; decent. Qed.
Lemma py_getitem_decent v i e : py_getitem v i = Err e -> decent e.
Proof.
  unfold py_getitem. destruct v as [| | | | | |[l|]| |]; try (intros H; injection H as <-; decent).
  - destruct (py_index s i) eqn:E; cbn [bind]; [discriminate|]. intros H; injection H as <-. eapply py_index_decent; exact E.
  - apply py_index_decent.
  - destruct (py_index l i) eqn:E; cbn [bind]; [discriminate|]. intros H; injection H as <-. eapply py_index_decent; exact E.
  - apply py_index_decent.
Qed.
Lemma py_len_decent v e : py_len v = Err e -> decent e.
Proof. unfold py_len. destruct v as [| | | | | |[l|]| |]; intros H; try discriminate; injection H as <-; decent. Qed.
Lemma message_decode_decent cfg depth c d e : message_decode (reg_of cfg) depth c d = Err e -> decent e.
Proof.
  unfold message_decode. destruct d as [s|s]; cbn [decode_data].
  - destruct (decode (reg_of cfg) depth s) as [l|x] eqn:D; cbn [bind].
    + destruct l as [|o [|]]; try (intros H; injection H as <-; decent).
      destruct (py_len o) eqn:L; cbn [bind]; [|intros H; injection H as <-; eapply py_len_decent; exact L].
      destruct (negb _); [intros H; injection H as <-; decent|].
      destruct (py_getitem o 0) eqn:G0; cbn [bind]; [|intros H; injection H as <-; eapply py_getitem_decent; exact G0].
      destruct (py_getitem o 1) eqn:G1; cbn [bind]; [|intros H; injection H as <-; eapply py_getitem_decent; exact G1].
      destruct (py_getitem o 2) eqn:G2; cbn [bind]; [discriminate|intros H; injection H as <-; eapply py_getitem_decent; exact G2].
    + intros H; injection H as <-. destruct (decode_exceptions cfg depth s) as [(l & X)|(y & X & I)]; rewrite D in X; [discriminate|].
      injection X as <-. cbn in I. repeat (destruct I as [<-|I]; [decent|]). destruct I.
  - intros H; injection H as <-; decent.
Qed.
Lemma int_digits_decent s : forall n b e, int_digits s n b = Err e -> decent e.
Proof.
  induction s as [|c s IH]; cbn; intros n b e H.
  - destruct b; [discriminate|]. injection H as <-. decent.
  - repeat match type of H with context [if ?x then _ else _] => destruct x end;
    try (injection H as <-; decent); try (eapply IH; exact H).
Qed.
Lemma py_int_decent v e : py_int v = Err e -> decent e.
Proof.
  destruct v; cbn; intros H; try discriminate; try (injection H as <-; decent).
  unfold py_int_of_str in H. destruct (strip is_ws s) as [|c r]; [injection H as <-; decent|].
  destruct (c =? 45); [destruct (int_digits r 0 false) eqn:E; cbn [bind] in H; [discriminate|]; injection H as <-; eapply int_digits_decent; exact E|].
  destruct (c =? 43); eapply int_digits_decent; exact H.
Qed.
Lemma response_decent m pdu e : response_action m pdu = Done (Err e) -> decent e.
Proof.
  unfold response_action. destruct (requestID_of pdu) as [r|x] eqn:R.
  - destruct (py_int r) as [id|x] eqn:P; [|intros H; injection H as <-; eapply py_int_decent; exact P].
    destruct (dict_get (callbacks m) id) as [[|n]|]; intros H; try discriminate; injection H as <-; decent.
  - intros H; injection H as <-. unfold requestID_of in R. destruct pdu as [| | | | | | | |c [|]]; try discriminate R; injection R as <-; decent.
Qed.
Lemma trap_decent sys e : trap_action sys = Done (Err e) -> decent e.
Proof. unfold trap_action. destruct (trapCallback sys) as [[|n]|]; intros H; try discriminate; injection H as <-; decent. Qed.
Lemma unknown_version_decent v : decent (unknown_version v).
Proof. destruct v; decent. Qed.
Lemma py_eq_int v z : exists b, py_eq v (VPyInt z) = Ok b.
Proof. destruct v; cbn; eauto. Qed.
Lemma dispatch_decent sys m msg e : dispatch sys m msg = Done (Err e) -> decent e.
Proof.
  unfold dispatch. destruct (py_eq_int (m_version msg) 0) as (b0 & ->). destruct (py_eq_int (m_version msg) 1) as (b1 & ->).
  pose proof (response_decent m (m_data msg) e) as RD. pose proof (trap_decent sys e) as TD. pose proof (unknown_version_decent (m_version msg)) as UV.
  destruct (flav sys), b0, b1; cbn iota;
  try (intros H; injection H as <-; exact UV);
  try (destruct (isinstance (m_data msg) CPDU); [exact RD|]; destruct (isinstance (m_data msg) CTrapPDU); [exact TD|discriminate]);
  destruct (isinstance (m_data msg) CPDU_v2); [exact RD|]; intros H; injection H as <-; decent.
Qed.
Lemma receive_decent sys m depth d r om : receiveData sys m depth d = (Done r, om) ->
  r = Ok tt \/ flav sys <> FV2 /\ exists e, r = Err e /\ decent e.
Proof.
  unfold receiveData. destruct (message_decode _ _ _ d) as [msg|e] eqn:D.
  - destruct (dispatch sys m msg) as [r0| |] eqn:Di; intros H; try discriminate. injection H as <- _.
    destruct r0 as [[]|e]; [destruct (flav sys); auto|]. pose proof (dispatch_decent _ _ _ _ Di) as De.
    rewrite guard_outcome by apply De. destruct (flav sys); cbn; auto; right; (split; [discriminate|eauto]).
  - intros H; injection H as <- _. pose proof (message_decode_decent _ _ _ _ _ D) as De.
    rewrite guard_outcome by apply De. destruct (flav sys); cbn; auto; right; (split; [discriminate|eauto]).
Qed.

(** Any delivery either comes back at once or runs a callback. *)
Lemma delivery_outcome sys st l depth d : delivery sys st l depth d -> exists st', step sys st l = Some st' /\
  ((came_back st st' (Ok tt)) \/
   (flav sys <> FV2 /\ exists e, e <> QueueEmpty /\ e <> SystemExit /\ came_back st st' (Err e)) \/
   (exists id n msg, callback_runs st st' (FResp id) (EInvoke id n msg)) \/
   (exists n msg, callback_runs st st' FTrap (EInvokeTrap n msg))).
Proof.
  intros D. destruct (receiveData sys (man st) depth d) as [a om] eqn:R. destruct a as [r|id n|n].
  - destruct (receive_decent _ _ _ _ _ _ R) as [->|(F & e & -> & De)].
    + destruct (deliver_done _ _ _ _ _ _ _ D R) as (st' & S & C); [discriminate|]. eauto.
    + destruct (deliver_done _ _ _ _ _ _ _ D R) as (st' & S & C); [intros X; injection X as ->; apply (proj1 De); reflexivity|].
      exists st'. split; [assumption|]. right. left. split; [assumption|]. exists e. destruct De. auto.
  - destruct om as [msg|]; [|destruct (receiveData_msg _ _ _ _ _ _ R eq_refl); discriminate].
    destruct (deliver_response _ _ _ _ _ _ _ _ D R) as (st' & S & C). exists st'. split; [assumption|]. right. right. left. eauto.
  - destruct om as [msg|]; [|destruct (receiveData_msg _ _ _ _ _ _ R eq_refl); discriminate].
    destruct (deliver_trap _ _ _ _ _ _ _ D R) as (st' & S & C). exists st'. split; [assumption|]. right. right. right. eauto.
Qed.
Lemma undecodable_outcome sys st l depth d e : delivery sys st l depth d ->
  message_decode (reg_of (imports sys)) depth (message_class (flav sys)) d = Err e ->
  exists st', step sys st l = Some st' /\ came_back st st' (outcome (flav sys) e).
Proof.
  intros D E. pose proof (message_decode_decent _ _ _ _ _ E) as [De1 De2].
  eapply deliver_done; [exact D| |apply outcome_ne; exact De1]. unfold receiveData. rewrite E, guard_outcome by exact De2. reflexivity.
Qed.

(** ** Receiving any well-formed message *)
Lemma message_delivered_read sys st l depth ver com pdu os : importable sys -> delivery sys st l depth (DStr os) ->
  reads_as (imports sys) ver com pdu os -> (S (height pdu) <= depth)%nat ->
  exists msg st', tree_of (m_version msg) = Some (TInt KInteger ver) /\ tree_of (m_community msg) = Some (TOct KOctetString com) /\ tree_of (m_data msg) = Some pdu /\
  step sys st l = Some st' /\
  match reaction_to (flav sys) ver (top_kind pdu) with
  | Answer => forall k id status index bindings, pdu = request_tree k id status index bindings ->
                match dict_get (callbacks (man st)) id with
                | Some (Cb n) => callback_runs st st' (FResp id) (EInvoke id n msg)
                | Some NotCallable => came_back st st' (outcome (flav sys) TypeError)
                | None => came_back st st' (outcome (flav sys) KeyError)
                end
  | Trap => match trapCallback sys with
            | Some (Cb n) => callback_runs st st' FTrap (EInvokeTrap n msg)
            | _ => came_back st st' (outcome (flav sys) TypeError)
            end
  | Ignore => came_back st st' (Ok tt)
  | Refuse e => came_back st st' (outcome (flav sys) e)
  end.
Proof.
  intros Im D R Hd. destruct (receive_read sys (man st) ver com pdu os Im R) as (msg & T0 & T1 & T2 & Rg & E).
  specialize (E depth Hd). exists msg.
  destruct (reaction_to (flav sys) ver (top_kind pdu)) eqn:RT.
  - destruct (delivery_outcome _ _ _ _ _ D) as (st' & S & _). exists st'. repeat split; auto.
    intros k id status index bindings ->.
    assert (K : request_kind k = true).
    { cbn in RT. unfold reaction_to, plain_reaction in RT. destruct (flav sys); repeat match type of RT with context [if ?b then _ else _] => destruct b end; destruct k; try reflexivity; discriminate RT. }
    destruct (request_object _ _ _ _ _ _ _ K T2 Rg) as (c & kr & rest & Em & _ & _ & _).
    assert (RA : response_action (man st) (m_data msg) = match dict_get (callbacks (man st)) id with None => Done (Err KeyError) | Some NotCallable => Done (Err TypeError) | Some (Cb n) => InvokeResponse id n end).
    { rewrite Em. reflexivity. }
    rewrite RA in E. destruct (dict_get (callbacks (man st)) id) as [[|n]|].
    + rewrite guard_outcome in E by discriminate. destruct (deliver_done _ _ _ _ _ _ _ D E) as (s2 & S2 & C); [apply outcome_ne; discriminate|]. congruence.
    + destruct (deliver_response _ _ _ _ _ _ _ _ D E) as (s2 & S2 & C). congruence.
    + rewrite guard_outcome in E by discriminate. destruct (deliver_done _ _ _ _ _ _ _ D E) as (s2 & S2 & C); [apply outcome_ne; discriminate|]. congruence.
  - unfold trap_action in E. destruct (trapCallback sys) as [[|n]|].
    + rewrite guard_outcome in E by discriminate. destruct (deliver_done _ _ _ _ _ _ _ D E) as (s2 & S2 & C); [apply outcome_ne; discriminate|]. eauto 8.
    + destruct (deliver_trap _ _ _ _ _ _ _ D E) as (s2 & S2 & C). eauto 8.
    + rewrite guard_outcome in E by discriminate. destruct (deliver_done _ _ _ _ _ _ _ D E) as (s2 & S2 & C); [apply outcome_ne; discriminate|]. eauto 8.
  - assert (G : guard (flav sys) (Ok tt) = Ok tt) by (destruct (flav sys); reflexivity). rewrite G in E.
    destruct (deliver_done _ _ _ _ _ _ _ D E) as (s2 & S2 & C); [discriminate|]. eauto 8.
  - assert (De : decent e).
    { unfold reaction_to, plain_reaction in RT. destruct (flav sys); repeat match type of RT with context [if ?b then _ else _] => destruct b end; destruct (top_kind pdu); try discriminate RT; injection RT as <-; decent. }
    rewrite guard_outcome in E by apply De. destruct (deliver_done _ _ _ _ _ _ _ D E) as (s2 & S2 & C); [apply outcome_ne; apply De|]. eauto 8.
Qed.
Lemma message_delivered sys st l depth strict ver com pdu os : importable sys -> delivery sys st l depth (DStr os) ->
  wire strict (message_tree ver com pdu) os -> readable (imports sys) pdu -> (S (height pdu) <= depth)%nat ->
  exists msg st', tree_of (m_version msg) = Some (TInt KInteger ver) /\ tree_of (m_community msg) = Some (TOct KOctetString com) /\ tree_of (m_data msg) = Some pdu /\
  step sys st l = Some st' /\
  match reaction_to (flav sys) ver (top_kind pdu) with
  | Answer => forall k id status index bindings, pdu = request_tree k id status index bindings ->
                match dict_get (callbacks (man st)) id with
                | Some (Cb n) => callback_runs st st' (FResp id) (EInvoke id n msg)
                | Some NotCallable => came_back st st' (outcome (flav sys) TypeError)
                | None => came_back st st' (outcome (flav sys) KeyError)
                end
  | Trap => match trapCallback sys with
            | Some (Cb n) => callback_runs st st' FTrap (EInvokeTrap n msg)
            | _ => came_back st st' (outcome (flav sys) TypeError)
            end
  | Ignore => came_back st st' (Ok tt)
  | Refuse e => came_back st st' (outcome (flav sys) e)
  end.
Proof. intros Im D W R Hd. eapply message_delivered_read; try eassumption. eapply wire_reads_as; eassumption. Qed.
Lemma answer_delivered_read sys st l depth ver com pdu os id : importable sys -> delivery sys st l depth (DStr os) ->
  reads_as (imports sys) ver com pdu os -> (S (height pdu) <= depth)%nat -> answer_to (flav sys) ver pdu id ->
  exists msg st', tree_of (m_version msg) = Some (TInt KInteger ver) /\ tree_of (m_community msg) = Some (TOct KOctetString com) /\ tree_of (m_data msg) = Some pdu /\
  step sys st l = Some st' /\
  match dict_get (callbacks (man st)) id with
  | Some (Cb n) => callback_runs st st' (FResp id) (EInvoke id n msg)
  | Some NotCallable => came_back st st' (outcome (flav sys) TypeError)
  | None => came_back st st' (outcome (flav sys) KeyError)
  end.
Proof.
  intros Im D R Hd (RT & k & s & i & bs & E). destruct (message_delivered_read _ _ _ _ _ _ _ _ Im D R Hd) as (msg & st' & T0 & T1 & T2 & S & X).
  rewrite RT in X. exists msg, st'. repeat split; auto. exact (X _ _ _ _ _ E).
Qed.
Lemma answer_delivered sys st l depth strict ver com pdu os id : importable sys -> delivery sys st l depth (DStr os) ->
  wire strict (message_tree ver com pdu) os -> readable (imports sys) pdu -> (S (height pdu) <= depth)%nat -> answer_to (flav sys) ver pdu id ->
  exists msg st', tree_of (m_version msg) = Some (TInt KInteger ver) /\ tree_of (m_community msg) = Some (TOct KOctetString com) /\ tree_of (m_data msg) = Some pdu /\
  step sys st l = Some st' /\
  match dict_get (callbacks (man st)) id with
  | Some (Cb n) => callback_runs st st' (FResp id) (EInvoke id n msg)
  | Some NotCallable => came_back st st' (outcome (flav sys) TypeError)
  | None => came_back st st' (outcome (flav sys) KeyError)
  end.
Proof. intros Im D W R Hd A. eapply answer_delivered_read; try eassumption. eapply wire_reads_as; eassumption. Qed.

(** ** Ids run out *)
Lemma next_mono_step sys st l st' : step sys st l = Some st' -> nextRequestID (man st) <= nextRequestID (man st').
Proof.
  intros H. apply step_effect in H. destruct H as
    [a m m' r stk lg H|m stk lg l stk' q L Q S|m stk lg l stk' id n msg r depth d L D Pd R1 R2 PE S KK
    |m stk lg l stk' n msg dpt dt L T Pd S DT KT|m id rest lg r m' r' stk' q l L A Q S|m om dst q stk lg s qq stk' sr O SS Q SN S]; cbn [man]; try lia.
  - apply handed_call in H. destruct r; lia.
  - destruct r as [[]|e]; cbn in A; [destruct (dict_get (callbacks m) id)|]; inversion A; subst; cbn; lia.
  - cbn. lia.
Qed.
Definition last_id (f : flavour) : Z := match f with FV1 => 2 ^ 31 - 1 | _ => 2 ^ 31 end.
Lemma id_limit_last f a : id_limit f a <= last_id f.
Proof. unfold id_limit, last_id. destruct f, a; try lia; destruct (_ =? _); lia. Qed.
Lemma exhausted_step sys st l st' : last_id (flav sys) < nextRequestID (man st) -> step sys st l = Some st' ->
  last_id (flav sys) < nextRequestID (man st') /\ exists new, log st' = log st ++ new /\ issued new = [] /\
  (forall p, In p (outbound (man st')) -> In p (outbound (man st)) \/ exists a, l = LCall a /\ request_callback a = None).
Proof.
  intros L H. assert (P : 0 <= nextRequestID (man st)) by (unfold last_id in L; destruct (flav sys); lia).
  split; [apply next_mono_step in H; lia|].
  apply step_effect in H. destruct H as
    [a m m' r stk lg H|m stk lg l stk' q L' Q S|m stk lg l stk' id n msg r depth d L' D Pd R1 R2 PE S KK
    |m stk lg l stk' n msg dpt dt L' T Pd S DT KT|m id rest lg r m' r' stk' q l L' A Q S|m om dst q stk lg s qq stk' sr O SS Q SN S]; cbn [man log] in *.
  - eexists; split; [reflexivity|]. split.
    + unfold issued; cbn [flat_map]. fold (issued (map (fun p => EPut (fst p) (snd p)) (skipn (length (outbound m)) (outbound m')))).
      rewrite (proj1 (put_events _)), app_nil_r. cbn [issued_by]. destruct r as [[v| |]|]; try reflexivity.
      destruct (request_callback a) as [cb|] eqn:R; [|reflexivity]. exfalso.
      destruct (call_over (flav sys) a cb m R) as (e & X); [pose proof (id_limit_last (flav sys) a); lia|assumption|]. rewrite H in X. discriminate.
    + destruct (request_callback a) as [cb|] eqn:R; [|eauto].
      destruct (call_over (flav sys) a cb m R) as (e & X); [pose proof (id_limit_last (flav sys) a); lia|assumption|]. rewrite H in X. cbn in X. subst r.
      pose proof (requests_call _ _ _ _ _ _ R H) as (-> & _). auto.
  - eexists; split; [reflexivity|]. split; [apply (quiet_nil q Q)|auto].
  - eexists; split; [reflexivity|]. split; [reflexivity|auto].
  - eexists; split; [reflexivity|]. split; [reflexivity|auto].
  - eexists; split; [reflexivity|]. split; [apply (quiet_nil q Q)|].
    destruct r as [[]|e]; cbn in A; [destruct (dict_get (callbacks m) id)|]; inversion A; subst; cbn; auto.
  - eexists; split; [reflexivity|]. split; [destruct SS as [->|(os & rr & ->)]; apply (quiet_nil qq Q)|]. rewrite O. cbn. auto.
Qed.
Lemma exhausted sys tr : forall st st', last_id (flav sys) < nextRequestID (man st) -> steps sys st tr = Some st' ->
  last_id (flav sys) < nextRequestID (man st') /\ issued (log st') = issued (log st).
Proof.
  induction tr as [|l tr IH]; cbn; intros st st' L H; [inversion H; subst; auto|].
  destruct (step sys st l) as [st1|] eqn:S; [|discriminate]. destruct (exhausted_step _ _ _ _ L S) as (L1 & new & N & I & _).
  destruct (IH _ _ L1 H) as [L2 I2]. split; [assumption|]. rewrite I2, N, issued_app, I, app_nil_r. reflexivity.
Qed.
Lemma assign_many sys n : forall m lg, exists lg', steps sys (mkState m [] lg) (repeat (LCall AAssign) n) = 
  Some (mkState (mkMgr (nextRequestID m + Z.of_nat n) (outbound m) (callbacks m)) [] lg').
Proof.
  induction n as [|n IH]; intros m lg.
  - exists lg. cbn. rewrite Z.add_0_r. destruct m; reflexivity.
  - cbn [repeat steps step user_runs do_call]. unfold mmap, assignRequestID. cbn [outbound].
    destruct (IH (mkMgr (nextRequestID m + 1) (outbound m) (callbacks m)) (lg ++ ECall AAssign (Ok (RVal (VPyInt (nextRequestID m)))) ::
              map (fun p => EPut (fst p) (snd p)) (skipn (length (outbound m)) (outbound m)))) as (lg' & E).
    exists lg'. rewrite E. cbn [nextRequestID outbound callbacks]. do 3 f_equal. lia.
Qed.

(** ** Events of request calls *)
Lemma call_event sys tr st l1 a r l2 : exec sys tr = Some st -> log st = l1 ++ ECall a r :: l2 ->
  exists tr1 tr2 st1 st2 m', tr = tr1 ++ LCall a :: tr2 /\ exec sys tr1 = Some st1 /\ log st1 = l1 /\
    do_call (flav sys) a (man st1) = (m', r) /\ step sys st1 (LCall a) = Some st2 /\ man st2 = m' /\ steps sys st2 tr2 = Some st /\
    exists rest, l2 = map (fun p => EPut (fst p) (snd p)) (skipn (length (outbound (man st1))) (outbound m')) ++ rest.
Proof.
  intros H L. destruct (steps_event _ _ _ _ _ _ H L) as (tr1 & lb & tr2 & st1 & st2 & n1 & n2 & -> & E1 & S & E2 & L2 & ->).
  pose proof S as S'. apply step_effect in S.
  assert (Q0 : forall q n, Forall quiet q -> q = n ++ ECall a r :: n2 -> False).
  { intros q n Q X. eapply quiet_no_split in X; [|exact Q]. exact X. }
  assert (SP : forall l : list (option message * address), map (fun p => EPut (fst p) (snd p)) l <> n1 ++ ECall a r :: n2).
  { intros l X. assert (I : In (ECall a r) (map (fun p => EPut (fst p) (snd p)) l)) by (rewrite X; apply in_elt). apply in_map_iff in I as (p & P & _). discriminate. }
  inversion S as
    [a' m m' r' stk lg Hc|m stk lg l stk' q NL Q SF|m stk lg l stk' id n msg r' depth d NL D Pd R1 R2 PE SF KK
    |m stk lg l stk' n msg dpt dt NL T Pd SF DT KT|m id rest lg r' m' r'' stk' q l NL A Q SF|m om dst q stk lg s qq stk' sr O SS Q SN SF]; subst st1; subst st2; subst lb;
    cbn [man log] in *; apply app_inv_head in L2.
  - destruct n1 as [|x n1].
    + cbn [app] in L2. injection L2 as -> -> L2. rewrite app_nil_r in *.
      exists tr1, tr2, (mkState m stk lg), (mkState m' stk (lg ++ ECall a r :: map (fun p => EPut (fst p) (snd p)) (skipn (length (outbound m)) (outbound m')))), m'. cbn [man log].
      repeat split; auto.
      destruct (steps_log _ _ _ _ E2) as (new & N). cbn [log] in N. rewrite N in L. rewrite <- app_assoc in L. cbn [app] in L. apply app_inv_head in L. injection L as L.
      exists new. symmetry. exact L.
    + exfalso. cbn [app] in L2. injection L2 as _ L2. generalize (skipn (length (outbound m)) (outbound m')) L2. clear. intros l.
      revert n1. induction l as [|p l IH]; cbn; intros [|y n1] X; try discriminate. injection X as _ X. eapply IH. exact X.
  - exfalso. eapply Q0; eauto.
  - exfalso. destruct n1 as [|? [|]]; discriminate L2.
  - exfalso. destruct n1 as [|? [|]]; discriminate L2.
  - exfalso. destruct n1 as [|? n1]; [discriminate L2|]. cbn [app] in L2. injection L2 as _ L2. eapply Q0; eauto.
  - exfalso. destruct n1 as [|? n1]; [discriminate L2|]. cbn [app] in L2. injection L2 as _ L2.
    destruct SS as [->|(os & rr & ->)].
    + eapply Q0; eauto.
    + destruct n1 as [|? n1]; [discriminate L2|]. cbn [app] in L2. injection L2 as _ L2. eapply Q0; eauto.
Qed.

(** ** Events of callbacks *)
Lemma in_quiet e n1 n2 q : Forall quiet q -> q = n1 ++ e :: n2 -> quiet e.
Proof. intros Q X. exact (quiet_no_split q n1 e n2 Q X). Qed.
Lemma not_puts (l : list (option message * address)) e n1 n2 : (forall om dst, e <> EPut om dst) -> map (fun p => EPut (fst p) (snd p)) l <> n1 ++ e :: n2.
Proof. intros N X. assert (I : In e (map (fun p => EPut (fst p) (snd p)) l)) by (rewrite X; apply in_elt). apply in_map_iff in I as (p & P & _). exact (N _ _ (eq_sym P)). Qed.
(** A step that logs a callback invocation hands it data that decode to the message. *)
Lemma label_delivery sys st l st' depth d : step sys st l = Some st' ->
  (l = LReceive depth d (match l with LReceive _ _ s => s | _ => ([], 0) end) \/ exists s src, l = LPoll (Datagram depth s src) /\ d = received (trans sys) s) ->
  delivery sys st l depth d.
Proof.
  destruct st as [m stk lg]. intros S [E|(s & src & -> & ->)].
  - destruct l; try discriminate E. injection E as -> ->. cbn in *. destruct (user_runs stk); [auto|discriminate].
  - cbn in *. repeat split. unfold poll_ready. cbn [stack]. destruct stk as [|[| | | |[|]] rest]; cbn in S |- *; try discriminate S; eauto.
Qed.
Lemma invoke_event sys tr st l1 id n msg l2 : exec sys tr = Some st -> log st = l1 ++ EInvoke id n msg :: l2 ->
  exists tr1 l tr2 st1 depth d, tr = tr1 ++ l :: tr2 /\ exec sys tr1 = Some st1 /\ log st1 = l1 /\ delivery sys st1 l depth d /\
    message_decode (reg_of (imports sys)) depth (message_class (flav sys)) d = Ok msg /\ pending (man st1) id (Cb n) /\
    exists st2, step sys st1 l = Some st2 /\ log st2 = log st1 ++ [EInvoke id n msg].
Proof.
  intros H L. destruct (steps_event _ _ _ _ _ _ H L) as (tr1 & lb & tr2 & st1 & st2 & n1 & n2 & -> & E1 & S & E2 & L2 & ->).
  pose proof S as S'. apply step_effect in S. destruct S as
    [a' m m' r' stk lg Hc|m stk lg l stk' q NL Q SF|m stk lg l stk' i n' msg' r' depth d NL D Pd R1 R2 PE SF KK
    |m stk lg l stk' n' msg' dpt dt NL T Pd SF DT KT|m i rest lg r' m' r'' stk' q l NL A Q SF|m om dst q stk lg s qq stk' sr O SS Q SN SF];
    cbn [man log] in *; apply app_inv_head in L2.
  - exfalso. destruct n1 as [|? n1]; [discriminate L2|]. cbn [app] in L2. injection L2 as _ L2. revert L2. apply not_puts. discriminate.
  - exfalso. apply in_quiet in L2; [exact L2|exact Q].
  - destruct n1 as [|? [|]]; try discriminate L2. cbn [app] in L2. injection L2 as -> -> -> L2. rewrite app_nil_r.
    exists tr1, l, tr2, (mkState m stk lg), depth, d. cbn [log man]. repeat split; auto; [eapply label_delivery; [exact S'|exact KK]|]. eexists; split; [exact S'|reflexivity].
  - exfalso. destruct n1 as [|? [|]]; discriminate L2.
  - exfalso. destruct n1 as [|? n1]; [discriminate L2|]. cbn [app] in L2. injection L2 as _ L2. apply in_quiet in L2; [exact L2|exact Q].
  - exfalso. destruct n1 as [|? n1]; [discriminate L2|]. cbn [app] in L2. injection L2 as _ L2.
    destruct SS as [->|(os & rr & ->)].
    + apply in_quiet in L2; [exact L2|exact Q].
    + destruct n1 as [|? n1]; [discriminate L2|]. cbn [app] in L2. injection L2 as _ L2. apply in_quiet in L2; [exact L2|exact Q].
Qed.
Lemma trap_event sys tr st l1 n msg l2 : exec sys tr = Some st -> log st = l1 ++ EInvokeTrap n msg :: l2 ->
  trapCallback sys = Some (Cb n) /\ isinstance (m_data msg) CTrapPDU = true /\
  exists tr1 l tr2 st1 depth d, tr = tr1 ++ l :: tr2 /\ exec sys tr1 = Some st1 /\ log st1 = l1 /\ delivery sys st1 l depth d /\
    message_decode (reg_of (imports sys)) depth (message_class (flav sys)) d = Ok msg /\
    exists st2, step sys st1 l = Some st2 /\ log st2 = log st1 ++ [EInvokeTrap n msg].
Proof.
  intros H L. destruct (steps_event _ _ _ _ _ _ H L) as (tr1 & lb & tr2 & st1 & st2 & n1 & n2 & -> & E1 & S & E2 & L2 & ->).
  pose proof S as S'. apply step_effect in S. destruct S as
    [a' m m' r' stk lg Hc|m stk lg l stk' q NL Q SF|m stk lg l stk' i n' msg' r' depth d NL D Pd R1 R2 PE SF KK
    |m stk lg l stk' n' msg' dpt dt NL T Pd SF DT KT|m i rest lg r' m' r'' stk' q l NL A Q SF|m om dst q stk lg s qq stk' sr O SS Q SN SF];
    cbn [man log] in *; apply app_inv_head in L2.
  - exfalso. destruct n1 as [|? n1]; [discriminate L2|]. cbn [app] in L2. injection L2 as _ L2. revert L2. apply not_puts. discriminate.
  - exfalso. apply in_quiet in L2; [exact L2|exact Q].
  - exfalso. destruct n1 as [|? [|]]; discriminate L2.
  - destruct n1 as [|? [|]]; try discriminate L2. cbn [app] in L2. injection L2 as -> -> L2. rewrite app_nil_r.
    split; [assumption|]. split; [assumption|].
    exists tr1, l, tr2, (mkState m stk lg), dpt, dt. cbn [log]. repeat split; auto; [eapply label_delivery; [exact S'|exact KT]|]. eexists; split; [exact S'|reflexivity].
  - exfalso. destruct n1 as [|? n1]; [discriminate L2|]. cbn [app] in L2. injection L2 as _ L2. apply in_quiet in L2; [exact L2|exact Q].
  - exfalso. destruct n1 as [|? n1]; [discriminate L2|]. cbn [app] in L2. injection L2 as _ L2.
    destruct SS as [->|(os & rr & ->)].
    + apply in_quiet in L2; [exact L2|exact Q].
    + destruct n1 as [|? n1]; [discriminate L2|]. cbn [app] in L2. injection L2 as _ L2. apply in_quiet in L2; [exact L2|exact Q].
Qed.

(** ** Callbacks finishing *)
Lemma receive_returns_over sys m r below lg f : wfs (f :: below) -> (f = FTrap \/ exists id, f = FResp id) -> r <> Err QueueEmpty ->
  receive_over m below lg (receive_returns sys m r below lg) r.
Proof.
  intros W F N. unfold receive_over. inversion W as [|g stk G U W'|g stk G U W'|rest W'|p stk U W']; subst.
  - destruct below as [|[| | | |] rest]; try discriminate U; cbn; auto.
  - cbn [receive_returns]. rewrite asyncore_read_id. destruct U as [U|(rest & ->)].
    + destruct stk as [|[| | | |] rest]; try discriminate U; cbn; auto.
    + cbn [poll_returns]. destruct r as [[]|e]; [auto|].
      replace (match e, flav sys with QueueEmpty, FSM => loop_empty sys m rest lg | _, _ => run_raises m e rest lg end) with (run_raises m e rest lg) by (destruct e, (flav sys); congruence).
      cbn. auto.
  - destruct F as [F|(? & F)]; discriminate.
  - destruct F as [F|(? & F)]; discriminate.
Qed.

(** ** The run loop *)
Lemma drain_v sys rest : flav sys <> FSM -> trans sys = Text -> forall q m lg, outbound m = q -> Forall sendable q ->
  exists st', steps sys (mkState m (FRun Sending :: rest) lg) (repeat (LSend (Ok tt)) (length q)) = Some st' /\
    man st' = mkMgr (nextRequestID m) [] (callbacks m) /\ stack st' = FRun Sending :: rest /\
    sends (log st') = sends lg ++ flat_map octets_of q.
Proof.
  intros NF T. induction q as [|[om dst] q IH]; intros m lg O F.
  - eexists; split; [reflexivity|]. cbn. rewrite app_nil_r. destruct m; cbn in *; subst. auto.
  - inversion F as [|? ? (msg & os & E1 & E2) F']; subst. cbn [fst] in E1. subst om.
    cbn [length repeat steps step]. unfold send_called. rewrite O, E2, T. cbn [sendto].
    destruct (IH (mkMgr (nextRequestID m) q (callbacks m)) ((lg ++ [ETake (Some msg) dst]) ++ [ESend os dst (Ok tt)]) eq_refl F') as (st' & S & M & K & L).
    exists st'. split.
    + rewrite <- S. destruct (flav sys); try reflexivity. congruence.
    + split; [exact M|]. split; [exact K|]. rewrite L, !sends_app. cbn [sends flat_map app octets_of fst snd]. unfold octets_of at 2. cbn [fst snd]. rewrite E2. rewrite app_nil_r, <- app_assoc. reflexivity.
Qed.
Lemma drain_sm sys rest : flav sys = FSM -> trans sys = Text -> forall q m lg, outbound m = q -> Forall sendable q ->
  exists st', steps sys (mkState m (FRun Polling :: rest) lg) (flat_map (fun _ => [LPoll Nothing; LSend (Ok tt)]) q) = Some st' /\
    man st' = mkMgr (nextRequestID m) [] (callbacks m) /\ stack st' = FRun Polling :: rest /\
    sends (log st') = sends lg ++ flat_map octets_of q.
Proof.
  intros NF T. induction q as [|[om dst] q IH]; intros m lg O F.
  - eexists; split; [reflexivity|]. cbn. rewrite app_nil_r. destruct m; cbn in *; subst. auto.
  - inversion F as [|? ? (msg & os & E1 & E2) F']; subst. cbn [fst] in E1. subst om.
    cbn [flat_map app steps step poll_called poll_returns]. unfold send_called. rewrite O, E2, T, NF. cbn [sendto].
    destruct (IH (mkMgr (nextRequestID m) q (callbacks m)) ((lg ++ [ETake (Some msg) dst]) ++ [ESend os dst (Ok tt)]) eq_refl F') as (st' & S & M & K & L).
    exists st'. split; [exact S|].
    split; [exact M|]. split; [exact K|]. rewrite L, !sends_app. cbn [sends flat_map app octets_of fst snd]. unfold octets_of at 2. cbn [fst snd]. rewrite E2. rewrite app_nil_r, <- app_assoc. reflexivity.
Qed.
Lemma callback_finishes sys tr st f below l st' : exec sys tr = Some st -> stack st = f :: below -> (f = FTrap \/ exists id, f = FResp id) ->
  step sys st l = Some st' ->
  match l with
  | LReturn => exists r, receive_over (man st') below (log st ++ match f with FResp id => [EFinished id (Ok tt)] | _ => [] end) st' r /\
                 (r = Ok tt \/ (r = Err KeyError /\ flav sys <> FV2 /\ exists id, f = FResp id /\ forall cb, ~ pending (man st) id cb))
  | LRaise e => guard (flav sys) (Err e) <> Err QueueEmpty ->
      receive_over (man st) below (log st ++ match f with FResp id => [EFinished id (Err e)] | _ => [] end) st' (guard (flav sys) (Err e))
  | _ => True
  end.
Proof.
  intros H SK F S. pose proof (exec_wfs _ _ _ H) as W. rewrite SK in W. destruct st as [m stk lg]. cbn [stack log man] in *. subst stk.
  destruct l; auto; cbn [step] in S.
  - destruct F as [->|(id & ->)].
    + injection S as <-. exists (Ok tt). split; [|auto]. rewrite app_nil_r.
      assert (R : receive_over m below lg (receive_returns sys m (Ok tt) below lg) (Ok tt)) by (eapply receive_returns_over; [exact W|auto|discriminate]).
      unfold receive_over in *. destruct R as [R1 R2]. split; [reflexivity|exact R2].
    + cbn [after_response] in S. destruct (dict_get (callbacks m) id) as [cb|] eqn:G.
      * injection S as <-. exists (Ok tt). split; [|auto].
        match goal with |- receive_over _ _ ?lg' (receive_returns _ ?m' _ _ _) _ => assert (R : receive_over m' below lg' (receive_returns sys m' (Ok tt) below lg') (Ok tt)) by (eapply receive_returns_over; [exact W|eauto|discriminate]) end.
        unfold receive_over in *. destruct R as [R1 R2]. split; [reflexivity|exact R2].
      * injection S as <-. exists (guard (flav sys) (Err KeyError)). split.
        -- match goal with |- receive_over _ _ ?lg' (receive_returns _ ?m' ?r _ _) _ => assert (R : receive_over m' below lg' (receive_returns sys m' r below lg') r) by (eapply receive_returns_over; [exact W|eauto|destruct (flav sys); discriminate]) end.
           unfold receive_over in *. destruct R as [R1 R2]. split; [reflexivity|exact R2].
        -- assert (NP : forall cb, ~ pending m id cb) by (intros cb P; unfold pending in P; congruence).
           destruct (flav sys); cbn; auto; right; repeat split; try discriminate; eauto.
  - intros N. destruct F as [->|(id & ->)].
    + injection S as <-. rewrite app_nil_r. eapply receive_returns_over; [exact W|auto|exact N].
    + cbn [after_response] in S. injection S as <-. eapply receive_returns_over; [exact W|eauto|exact N].
Qed.

(** ** Invocations and dispatch *)
Lemma invoked_dispatch sys st l st' depth d msg e : delivery sys st l depth d ->
  message_decode (reg_of (imports sys)) depth (message_class (flav sys)) d = Ok msg -> step sys st l = Some st' -> log st' = log st ++ [e] ->
  match e with
  | EInvoke id n _ => dispatch sys (man st) msg = InvokeResponse id n
  | EInvokeTrap n _ => dispatch sys (man st) msg = InvokeTrap n
  | _ => True
  end.
Proof.
  intros D E S L. destruct (delivery_step _ _ _ _ _ D) as (below & _ & S2). rewrite S in S2. injection S2 as ->.
  unfold receive_called, receiveData in L. rewrite E in L. destruct (dispatch sys (man st) msg) as [r|id n|n].
  - destruct (receive_returns_quiet sys (man st) (guard (flav sys) r) below (log st)) as (q & s & X & Q & _). rewrite X in L. cbn [log] in L. apply app_inv_head in L. subst.
    inversion Q; subst. destruct e; auto; contradiction.
  - cbn [log] in L. apply app_inv_head in L. injection L as <-. reflexivity.
  - cbn [log] in L. apply app_inv_head in L. injection L as <-. reflexivity.
Qed.
Lemma py_eq_number v z : py_eq v (VPyInt z) = Ok true -> is_number v z.
Proof. destruct v; cbn; intros H; try discriminate; injection H as H; apply Z.eqb_eq in H; subst; unfold is_number; eauto. Qed.
Lemma dispatch_invokes sys m msg : 
  match dispatch sys m msg with
  | InvokeResponse _ _ => known_version (flav sys) (m_version msg) /\ isinstance (m_data msg) CPDU = true
  | InvokeTrap n => (is_number (m_version msg) 0 \/ (flav sys = FV2 /\ is_number (m_version msg) 1)) /\ class_of (m_data msg) = Some CTrapPDU
  | Done _ => True
  end.
Proof.
  unfold dispatch. destruct (py_eq_int (m_version msg) 0) as (b0 & E0). destruct (py_eq_int (m_version msg) 1) as (b1 & E1). rewrite E0, E1.
  assert (V2 : isinstance (m_data msg) CPDU_v2 = true -> isinstance (m_data msg) CPDU = true).
  { unfold isinstance. destruct (class_of (m_data msg)) as [c|]; [|discriminate]. destruct c; vm_compute; congruence. }
  assert (TP : isinstance (m_data msg) CTrapPDU = true -> class_of (m_data msg) = Some CTrapPDU).
  { unfold isinstance. destruct (class_of (m_data msg)) as [c|]; [|discriminate]. destruct c; vm_compute; congruence. }
  assert (RA : forall P Q : Prop, P -> match response_action m (m_data msg) with InvokeResponse _ _ => P | InvokeTrap _ => Q | Done _ => True end).
  { intros P Q p. unfold response_action. destruct (requestID_of _); [|auto]. destruct (py_int _); [|auto]. destruct (dict_get _ _) as [[|]|]; auto. }
  assert (TA : forall P Q : Prop, Q -> match trap_action sys with InvokeResponse _ _ => P | InvokeTrap _ => Q | Done _ => True end).
  { intros P Q q. unfold trap_action. destruct (trapCallback sys) as [[|]|]; auto. }
  unfold known_version. destruct (flav sys), b0, b1; cbn iota; auto;
  try (destruct (isinstance (m_data msg) CPDU) eqn:P; [apply RA; split; [|reflexivity]|destruct (isinstance (m_data msg) CTrapPDU) eqn:T; [apply TA; split; [|auto]|auto]]);
  try (left; apply py_eq_number; assumption);
  try (right; split; [discriminate|apply py_eq_number; assumption]);
  try (right; split; [reflexivity|apply py_eq_number; assumption]);
  try (destruct (isinstance (m_data msg) CPDU_v2) eqn:P; [apply RA; split; [right; split; [discriminate|apply py_eq_number; assumption]|auto]|auto]).
Qed.

(** ** A request and its answer *)
Lemma poll_stack sys m depth s src stk lg st' id n msg : trans sys = Text ->
  step sys (mkState m (FRun Polling :: stk) lg) (LPoll (Datagram depth s src)) = Some st' ->
  callback_runs (mkState m (FRun Polling :: stk) lg) st' (FResp id) (EInvoke id n msg) ->
  st' = mkState m (FResp id :: FRead :: FRun Polling :: stk) (lg ++ [EInvoke id n msg]).
Proof.
  intros T S (M & L & K). cbn [man stack log] in *. destruct K as [K|K]; [|destruct st'; cbn in *; congruence].
  exfalso. cbn [step poll_called] in S. injection S as S. rewrite T in S. cbn [received] in S. unfold receive_called, receiveData in S.
  destruct (message_decode _ _ _ _) as [msg'|e].
  - destruct (dispatch sys m msg') as [r|i k|k].
    + subst st'. destruct (receive_returns_quiet sys m (guard (flav sys) r) (FRead :: FRun Polling :: stk) lg) as (q & s' & X & Q & _).
      rewrite X in L. cbn [log] in L. apply app_inv_head in L. subst q. inversion Q; contradiction.
    + subst st'. cbn in K. discriminate K.
    + subst st'. cbn in K. discriminate K.
  - subst st'. destruct (receive_returns_quiet sys m (guard (flav sys) (Err e)) (FRead :: FRun Polling :: stk) lg) as (q & s' & X & Q & _).
    rewrite X in L. cbn [log] in L. apply app_inv_head in L. subst q. inversion Q; contradiction.
Qed.
Lemma steps_app sys a : forall st b st', steps sys st a = Some st' -> steps sys st (a ++ b) = steps sys st' b.
Proof. induction a as [|l a IH]; intros st b st' H; cbn in *; [congruence|]. destruct (step sys st l) as [s|]; [|discriminate]. apply IH, H. Qed.
Lemma round_trip_runs sys tr st a n dst r m' t strict ver com pdu os' depth src :
  exec sys tr = Some st -> user_runs (stack st) = true -> outbound (man st) = [] -> queueEmpty sys = None -> trans sys = Text -> importable sys ->
  do_call (flav sys) a (man st) = (m', r) -> queued (man st) m' r (nextRequestID (man st)) dst (Cb n) t ->
  wire strict (message_tree ver com pdu) os' -> readable (imports sys) pdu -> (S (height pdu) <= depth)%nat -> answer_to (flav sys) ver pdu (nextRequestID (man st)) ->
  exists k om os msg st', 
    steps sys st (round_trip (flav sys) a (Datagram depth os' src)) = Some st' /\
    log st' = log st ++ [ECall a (Ok (RVal (VInt k (nextRequestID (man st))))); EPut (Some om) dst; ETake (Some om) dst; ESend os dst (Ok tt);
                         EInvoke (nextRequestID (man st)) n msg; EFinished (nextRequestID (man st)) (Ok tt)] /\
    written t os /\
    tree_of (m_version msg) = Some (TInt KInteger ver) /\ tree_of (m_community msg) = Some (TOct KOctetString com) /\ tree_of (m_data msg) = Some pdu /\
    stack st' = FRun Sending :: stack st /\ outbound (man st') = [] /\ nextRequestID (man st') = nextRequestID (man st) + 1 /\
    (forall id cb, pending (man st') id cb <-> pending (man st) id cb).
Proof.
  intros H U O QE T Im C (k & om & os & R & NX & OB & CB & En & Wi) W Rd Hd An.
  pose proof (exec_inv _ _ _ H) as I. set (id := nextRequestID (man st)) in *.
  assert (ST : exists st1, steps sys st ([LCall a; LRun] ++ (match flav sys with FSM => [LPoll Nothing; LSend (Ok tt)] | _ => [LSend (Ok tt); LSend (Ok tt)] end)) = Some st1 /\
     st1 = mkState (mkMgr (id + 1) [] (callbacks m')) (FRun Polling :: stack st) (log st ++ [ECall a (Ok (RVal (VInt k id))); EPut (Some om) dst; ETake (Some om) dst; ESend os dst (Ok tt)])).
  { destruct st as [m stk lg]. cbn [man stack log] in *. rewrite O in OB. cbn [app] in OB.
    eexists. split; [|reflexivity]. cbn [app steps step]. rewrite U, C. cbn [steps step]. rewrite U, O, OB. cbn [length skipn map fst snd].
    assert (SC : forall lg', send_called sys m' (Ok tt) stk lg' = mkState (mkMgr (id + 1) [] (callbacks m')) (FRun (match flav sys with FSM => Polling | _ => Sending end) :: stk) ((lg' ++ [ETake (Some om) dst]) ++ [ESend os dst (Ok tt)])).
    { intros lg'. unfold send_called. rewrite OB, En, T, NX. reflexivity. }
    subst r. destruct (flav sys) eqn:F; cbn [steps step poll_called poll_returns]; rewrite ?F; rewrite SC; cbn [steps step]; unfold send_called; cbn [outbound loop_empty]; unfold loop_empty; rewrite ?QE; rewrite <- !app_assoc; reflexivity. }
  destruct ST as (st1 & ST & E1).
  assert (D : delivery sys st1 (LPoll (Datagram depth os' src)) depth (DStr os')).
  { subst st1. cbn. rewrite T. split; [reflexivity|]. split; [reflexivity|]. right. eexists; reflexivity. }
  destruct (answer_delivered _ _ _ _ _ _ _ _ _ _ Im D W Rd Hd An) as (msg & st2 & T0 & T1 & T2 & S2 & X).
  assert (G : dict_get (callbacks (man st1)) id = Some (Cb n)).
  { subst st1. cbn [man callbacks]. rewrite CB, Z.eqb_refl. reflexivity. }
  rewrite G in X. rewrite E1 in X, S2. apply (poll_stack _ _ _ _ _ _ _ _ _ _ _ T S2) in X. subst st2.
  assert (ND : NoDup (map fst (callbacks m'))).
  { assert (Hs : steps sys st [LCall a] <> None).
    { cbn [steps]. destruct st as [m stk lg]. cbn [step stack man] in *. rewrite U, C. discriminate. }
    destruct (steps sys st [LCall a]) as [sx|] eqn:Hx; [|congruence].
    assert (Ex : exec sys (tr ++ [LCall a]) = Some sx) by (unfold exec; rewrite (steps_app _ _ _ _ _ H); exact Hx).
    pose proof (i_nodup _ (exec_inv _ _ _ Ex)) as N. destruct st as [m stk lg]. cbn [steps step stack man] in *. rewrite U, C in Hx. injection Hx as <-. exact N. }
  exists k, om, os, msg. eexists. split; [|split; [|split; [exact Wi|split; [exact T0|split; [exact T1|split; [exact T2|]]]]]].
  - unfold round_trip. rewrite app_assoc, (steps_app _ _ _ _ _ ST), E1. cbn [steps]. rewrite S2. cbn [steps step after_response callbacks nextRequestID outbound].
    rewrite E1 in G. cbn [man callbacks] in G. rewrite G. cbn [receive_returns asyncore_read poll_returns]. reflexivity.
  - cbn [log]. rewrite <- !app_assoc. reflexivity.
  - cbn [stack man outbound nextRequestID]. repeat split; auto; unfold pending; cbn [callbacks]; rewrite dict_get_del by exact ND; rewrite CB;
      intros P; destruct (Z.eqb_spec id id0) as [E|E]; rewrite ?(proj2 (Z.eqb_neq id0 id)) in * by congruence; try discriminate; auto.
    exfalso. subst id0. apply (i_pend _ I) in P. pose proof (i_range _ I) as Rg. rewrite Forall_forall in Rg. specialize (Rg _ P). cbn in Rg. fold id in Rg. lia.
Qed.
