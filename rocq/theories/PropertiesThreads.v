(** * Theorems about several threads sharing one manager (C63-C65). *)
From Coq Require Import ZArith List Bool Lia.
From Verif Require Import PyBase Classes Values Codec Manager Threads SpecSMI SpecTree SpecWire SpecMsg SpecManager SpecThreads.
From Verif Require Import ProofsManager ProofsHistory ProofsRun ProofsThreads PropertiesManager.
Import ListNotations.
Open Scope Z_scope.

(** C63. A thread that makes a call while no other does anything gets what the sequential description gives: the same
    manager afterwards, the same result, the same messages queued. *)
Theorem C63_alone : forall sys st t a, active (threads st t) = None -> user_runs (frames (threads st t)) = true ->
  exists n st' m' r, do_call (flav sys) a (shared st) = (m', r) /\ tsteps sys st (alone t a n) = Some st' /\
    shared st' = m' /\ same_threads (threads st') (threads st) /\
    tlog st' = tlog st ++ map (pair t) (map (fun q => EPut (fst q) (snd q)) (skipn (length (outbound (shared st))) (outbound m')) ++ [ECall a r]).
Proof. exact alone_call. Qed.
Print Assumptions C63_alone.
(** C63. Under every schedule the ids handed out are natural numbers smaller than the number of calls begun. *)
Theorem C63_range : forall sys tr st id, texec sys tr = Some st -> In id (handed_out (events st)) -> 0 <= id < begun tr.
Proof. exact ids_range. Qed.
Print Assumptions C63_range.
(** C63. If no two threads are in assignRequestID at the same time, no id is handed out twice, whatever else is interleaved. *)
Theorem C63_unique : forall sys tr st, exclusive sys tr -> texec sys tr = Some st -> NoDup (handed_out (events st)).
Proof. exact ids_unique. Qed.
Print Assumptions C63_unique.
(** C63. Without that, any number of ids can be handed out again after one badly timed switch between two threads. *)
Theorem C63_unique_refuted : forall sys n, (1 <= n)%nat -> exists tr st, texec sys tr = Some st /\
  handed_out (events st) = map Z.of_nat (seq 0 n) ++ map Z.of_nat (seq 0 n).
Proof. intros sys n N. exists (race n). exact (race_runs sys n N). Qed.
Print Assumptions C63_unique_refuted.
(** To run a schedule by computation and look at a part of the result only (the method calls in progress are functions). *)
Lemma run_view : forall {B} (g : tstate -> B) sys tr b,
  match texec sys tr with Some st => Some (g st) | None => None end = Some b -> exists st, texec sys tr = Some st /\ g st = b.
Proof. intros B g sys tr b H. destruct (texec sys tr) as [st|]; [|discriminate]. exists st. split; [reflexivity|congruence]. Qed.
(** The whole trace of two interleaved requests: thread 0 is in the middle of snmpGet while thread 1 makes one. *)
Definition two_gets : list tlabel :=
  [TBegin 0 (sample_get 7); TAccess 0; TAccess 0; TAccess 0;
   TBegin 1 (sample_get 8); TAccess 1; TAccess 1; TAccess 0; TAccess 1; TAccess 1; TAccess 0; TAccess 1; TEnd 1; TEnd 0].
Definition both_assigning (st : tstate) : bool :=
  let f t := match active (threads st t) with Some (_, PAgain _) | Some (_, PStore _ _) => true | _ => false end in f 0%nat && f 1%nat.
Lemma two_gets_prefixes : forallb (fun k => match texec (sample FV1 Text) (firstn k two_gets) with
  Some st => negb (both_assigning st) | None => true end) (seq 0 (S (length two_gets))) = true.
Proof. vm_compute. reflexivity. Qed.
Lemma two_gets_exclusive : exclusive (sample FV1 Text) two_gets.
Proof.
  intros tr1 tr2 st t u E H A B.
  assert (K : forall w, assigning (threads st w) -> w = 0%nat \/ w = 1%nat).
  { intros w W. destruct (active_begun _ w _ _ H) as [a I]; [intros Z; unfold assigning in W; rewrite Z in W; exact W|].
    assert (J : In (TBegin w a) two_gets) by (rewrite E; apply in_or_app; auto). cbn in J.
    repeat (destruct J as [J|J]; [inversion J; auto|]). destruct J. }
  assert (N : assigning (threads st 0%nat) -> assigning (threads st 1%nat) -> False).
  { clear - E H. intros A B. pose proof two_gets_prefixes as P. rewrite forallb_forall in P.
    specialize (P (length tr1)). rewrite E, firstn_app, Nat.sub_diag, firstn_all in P. cbn [firstn] in P. rewrite app_nil_r, H in P.
    assert (Q : In (length tr1) (seq 0 (S (length (tr1 ++ tr2))))) by (apply in_seq; rewrite app_length; lia).
    specialize (P Q). unfold both_assigning, assigning in *. clear - P A B.
    destruct (active (threads st 0%nat)) as [[? []]|]; try contradiction; destruct (active (threads st 1%nat)) as [[? []]|]; try contradiction; discriminate P. }
  destruct (K t A) as [-> | ->], (K u B) as [-> | ->]; auto; exfalso; auto.
Qed.
Example C63_example : exclusive (sample FV1 Text) two_gets /\
  exists st, texec (sample FV1 Text) two_gets = Some st /\ issued (events st) = [(1, Cb 8); (0, Cb 7)].
Proof. split; [exact two_gets_exclusive|]. apply (run_view (fun st => issued (events st))). vm_compute. reflexivity. Qed.

(** C64. With assignRequestID in one thread at a time: a callback called for a response is the one given to the request with that id ... *)
Theorem C64_right_callback : forall sys tr st id cb n msg, exclusive sys tr -> texec sys tr = Some st ->
  In (id, cb) (issued (events st)) -> In (EInvoke id n msg) (events st) -> cb = Cb n.
Proof. exact right_callback. Qed.
Print Assumptions C64_right_callback.
(** ... and a request whose call has returned stays registered until its callback has returned normally, ... *)
Theorem C64_registered : forall sys tr st id cb, exclusive sys tr -> texec sys tr = Some st ->
  In (id, cb) (issued (events st)) -> normal_finishes id (events st) = 0%nat -> pending (shared st) id cb.
Proof. exact registered. Qed.
Print Assumptions C64_registered.
(** ... so that an answer received by any thread from then on is given to its callback. *)
Theorem C64_answered : forall sys tr st t l depth strict ver com pdu os id n, exclusive sys tr -> texec sys tr = Some st ->
  In (id, Cb n) (issued (events st)) -> normal_finishes id (events st) = 0%nat ->
  importable sys -> active (threads st t) = None -> delivery sys (mkState (shared st) (frames (threads st t)) []) l depth (DStr os) ->
  wire strict (message_tree ver com pdu) os -> readable (imports sys) pdu -> (S (height pdu) <= depth)%nat -> answer_to (flav sys) ver pdu id ->
  exists msg st', tstep sys st (TDo t l) = Some st' /\ events st' = events st ++ [EInvoke id n msg] /\ answering (threads st' t) id /\
    tree_of (m_version msg) = Some (TInt KInteger ver) /\ tree_of (m_community msg) = Some (TOct KOctetString com) /\ tree_of (m_data msg) = Some pdu.
Proof.
  intros sys tr st t l depth strict ver com pdu os id n X H I F Im A D W R Hd An.
  pose proof (registered _ _ _ _ _ X H I F) as P. unfold pending in P.
  destruct (answer_delivered _ _ _ _ _ _ _ _ _ _ Im D W R Hd An) as (msg & s' & T0 & T1 & T2 & S & C). cbn [man] in C. rewrite P in C. destruct C as (C1 & C2 & C3).
  exists msg. destruct st as [m ths lg]. cbn [tstep shared threads] in *. rewrite A.
  assert (L : is_call l = false) by (destruct l; [destruct D|..]; reflexivity). rewrite L, S. eexists; split; [reflexivity|].
  cbn [log app] in C2. split; [unfold events; cbn [tlog]; rewrite C2, map_app; reflexivity|]. split; [|auto].
  unfold answering. cbn [threads]. rewrite set_same. cbn [frames]. destruct C3 as [-> | ->]; eauto.
Qed.
Print Assumptions C64_answered.
(** C64. Before that it may be lost: the methods queue the message first and register the callback afterwards, so while one
    thread is between the two, another can send the request and receive the answer, which is then unknown and
    dropped; the callback stays registered and is never called. *)
Definition get_of (f : flavour) (n : nat) : call :=
  match f with
  | FV2 => AGet (VPyList [VPyStr [49; 46; 51; 46; 54]]) ([], 161) (Cb n) (VPyStr [112]) 2
  | _ => sample_get n
  end.
Definition early (f : flavour) : list tlabel :=
  [TBegin 0 (get_of f 7); TAccess 0; TAccess 0; TAccess 0; TAccess 0; TDo 1 LRun] ++
  match f with FSM => [TDo 1 (LPoll Nothing); TDo 1 (LSend (Ok tt))] | _ => [TDo 1 (LSend (Ok tt)); TDo 1 (LSend (Ok tt))] end ++
  [TDo 1 (LPoll (Datagram 9 (sample_octets (match f with FV2 => 1 | _ => 0 end) 0) ([], 0))); TAccess 0; TEnd 0].
Theorem C64_early_refuted : forall f, exists tr st os, exclusive (sample f Text) tr /\ texec (sample f Text) tr = Some st /\
  sends (events st) = [(os, ([], 161))] /\                      (* the request was sent *)
  issued (events st) = [(0, Cb 7)] /\                            (* the call returned, with id 0 *)
  In (TDo 1 (LPoll (Datagram 9 (sample_octets (match f with FV2 => 1 | _ => 0 end) 0) ([], 0)))) tr /\   (* its answer was received *)
  invocations 0 (events st) = 0%nat.                             (* the callback was not called *)
Proof.
  intros f. exists (early f).
  assert (X : exclusive (sample f Text) (early f)).
  { apply (one_caller_exclusive _ _ 0). intros u a I. destruct f; cbn in I; repeat (destruct I as [I|I]; [inversion I; reflexivity|]); destruct I. }
  assert (V : exists os st, texec (sample f Text) (early f) = Some st /\
     (sends (events st), issued (events st), invocations 0 (events st)) = ([(os, ([], 161))], [(0, Cb 7)], 0%nat)).
  { destruct f; eexists; apply (run_view (fun st => (sends (events st), issued (events st), invocations 0 (events st)))); vm_compute; reflexivity. }
  destruct V as (os & st & R & V). injection V as V1 V2 V3. exists st, os. repeat (split; [assumption|]). split; [destruct f; cbn; tauto|exact V3].
Qed.
Print Assumptions C64_early_refuted.
(** C64. When two threads are in assignRequestID at once, the answer to one request goes to the callback of the other, whose answer then is unknown. *)
Definition crossed : list tlabel :=
  [TBegin 0 (sample_get 7); TAccess 0; TBegin 1 (sample_get 8); TAccess 1; TAccess 0; TAccess 0; TAccess 1; TAccess 1;
   TAccess 0; TAccess 1; TAccess 0; TAccess 1; TEnd 0; TEnd 1;
   TDo 0 (LReceive 9 (DStr (sample_octets 0 0)) ([], 0)); TDo 0 LReturn; TDo 0 (LReceive 9 (DStr (sample_octets 0 0)) ([], 0))].
Theorem C64_right_callback_refuted : exists tr st msg, texec (sample FV1 Text) tr = Some st /\
  issued (events st) = [(0, Cb 7); (0, Cb 8)] /\ In (EInvoke 0 8 msg) (events st) /\ invocations 0 (events st) = 1%nat /\
  In (EResult (Err KeyError)) (events st).
Proof.
  edestruct (run_view events (sample FV1 Text) crossed) as (st & R & V); [vm_compute; reflexivity|].
  exists crossed, st. eexists. split; [exact R|]. rewrite V. split; [reflexivity|]. split; [cbn; do 4 right; left; reflexivity|].
  split; [reflexivity|]. cbn. auto 12.
Qed.
Print Assumptions C64_right_callback_refuted.
(** C64. Two threads that receive (two copies of) the same answer can both have the callback running, and both come to their normal end: unlike with one
    thread (C35), a callback can complete twice.  The second deletion of the entry is a KeyError. *)
Definition doubled : list tlabel :=
  [TBegin 0 (sample_get 7)] ++ repeat (TAccess 0) 5 ++ [TEnd 0; TDo 0 (LReceive 9 (DStr (sample_octets 0 0)) ([], 0)); TDo 1 (LReceive 9 (DStr (sample_octets 0 0)) ([], 0));
   TDo 0 LReturn; TDo 1 LReturn].
Theorem C64_twice_refuted : exists tr st, exclusive (sample FV1 Text) tr /\ texec (sample FV1 Text) tr = Some st /\
  issued (events st) = [(0, Cb 7)] /\ invocations 0 (events st) = 2%nat /\ normal_finishes 0 (events st) = 2%nat /\
  In (EResult (Err KeyError)) (events st).
Proof.
  edestruct (run_view events (sample FV1 Text) doubled) as (st & R & V); [vm_compute; reflexivity|]. exists doubled, st.
  split; [apply (one_caller_exclusive _ _ 0); intros u a I; cbn in I; repeat (destruct I as [I|I]; [inversion I; reflexivity|]); destruct I|].
  split; [exact R|]. rewrite V. repeat split; try reflexivity. cbn. auto 12.
Qed.
Print Assumptions C64_twice_refuted.
Example C64_example : exists st, texec (sample FV1 Text) (two_gets ++ [TDo 2 (LReceive 9 (DStr (sample_octets 0 1)) ([], 0))]) = Some st /\
  issued (events st) = [(1, Cb 8); (0, Cb 7)] /\ invocations 1 (events st) = 1%nat /\ normal_finishes 1 (events st) = 0%nat /\ answering (threads st 2%nat) 1.
Proof.
  edestruct (run_view (fun st => (issued (events st), invocations 1 (events st), normal_finishes 1 (events st), frames (threads st 2%nat)))
    (sample FV1 Text) (two_gets ++ [TDo 2 (LReceive 9 (DStr (sample_octets 0 1)) ([], 0))])) as (st & R & V); [vm_compute; reflexivity|]. injection V as V1 V2 V3 V4. exists st. repeat (split; [assumption|]). unfold answering. rewrite V4. eexists; reflexivity.
Qed.

(** C65. The queue is safe for threads: under every schedule, with any number of threads queueing messages and running run(), the messages
    taken from the queue and those still in it are, in this order, those that were put there, each once; and what is handed to the socket is the
    octets of the messages taken (those that can be written), in their order. *)
Theorem C65_queue : forall sys tr st, texec sys tr = Some st ->
  puts (events st) = takes (events st) ++ outbound (shared st) /\ sends (events st) = flat_map octets_of (takes (events st)).
Proof. exact (fun sys tr => thread_queue sys tr). Qed.
Print Assumptions C65_queue.
Example C65_example : exists st, texec (sample FV1 Text) (two_gets ++ [TDo 2 LRun; TDo 3 LRun; TDo 2 (LSend (Ok tt)); TDo 3 (LSend (Ok tt))]) = Some st /\
  length (puts (events st)) = 2%nat /\ length (sends (events st)) = 2%nat /\ outbound (shared st) = [].
Proof.
  edestruct (run_view (fun st => (length (puts (events st)), length (sends (events st)), outbound (shared st))) (sample FV1 Text)
    (two_gets ++ [TDo 2 LRun; TDo 3 LRun; TDo 2 (LSend (Ok tt)); TDo 3 (LSend (Ok tt))])) as (st & R & V); [vm_compute; reflexivity|].
  injection V as V1 V2 V3. exists st. auto.
Qed.
