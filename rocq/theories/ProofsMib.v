(** * Proofs about programs that talk to an honest agent: order of names, single events. *)
From Coq Require Import Ascii String ZArith List Bool Lia ZifyBool ZifyNat Sorted.
From Verif Require Import PyBase Classes Values Codec Manager Text Frontend Tools.
From Verif Require Import SpecBER SpecSMI SpecTree SpecWire SpecMsg SpecManager SpecText SpecFront SpecTools SpecMib.
From Verif Require Import ProofsTree ProofsDecode ProofsWire ProofsMsg ProofsManager ProofsReceive ProofsCalls ProofsRun ProofsTools ProofsPrograms ProofsPrograms2 ProofsProgress.
Import ListNotations.
Open Scope Z_scope.
Local Open Scope list_scope.

(** ** The order of names *)
Lemma before_irrefl a : ~ before a a.
Proof. induction a as [|x a IH]; cbn; [tauto|]. intros [H|[_ H]]; [lia|tauto]. Qed.
Lemma before_trans a : forall b c, before a b -> before b c -> before a c.
Proof.
  induction a as [|x a IH]; intros [|y b] [|z c]; cbn; try tauto.
  intros [H|[-> H]] [H'|[-> H']]; [left; lia|left; lia|left; lia|right; split; [reflexivity|eauto]].
Qed.
Lemma before_total a : forall b, a = b \/ before a b \/ before b a.
Proof.
  induction a as [|x a IH]; intros [|y b]; cbn; auto.
  destruct (Z.lt_trichotomy x y) as [H|[->|H]]; auto. destruct (IH b) as [->|[H|H]]; auto.
Qed.
Lemma sorted_app A (b : list Z * tree) B : StronglySorted before (map fst (A ++ b :: B)) ->
  (forall x, In x A -> before (fst x) (fst b)) /\ (forall x, In x B -> before (fst b) (fst x)).
Proof.
  induction A as [|a A IH]; cbn [app map]; intros H; apply StronglySorted_inv in H as [S F].
  - split; [contradiction|]. intros x I. rewrite Forall_map in F. apply (proj1 (Forall_forall _ _) F x I).
  - destruct (IH S) as [I1 I2]. split; [|exact I2]. intros x [<-|I]; [|auto]. rewrite Forall_map in F.
    apply (proj1 (Forall_forall _ _) F b). apply in_or_app. right. left. reflexivity.
Qed.
Lemma list_head M name v L : lists M name L -> M name = Some v -> exists L', L = (name, v) :: L'.
Proof.
  intros [S I] H. assert (J : In (name, v) L) by (apply I; auto). destruct L as [|[n0 v0] L]; [destruct J|].
  destruct J as [E|J]; [exists L; congruence|]. exfalso. destruct (proj2 (proj1 (I n0 v0) (or_introl eq_refl))) as [->|B].
  - destruct (sorted_app [] _ _ S) as [_ X]. exact (before_irrefl _ (X _ J)).
  - destruct (sorted_app [] _ _ S) as [_ X]. exact (before_irrefl _ (before_trans _ _ _ B (X _ J))).
Qed.
Lemma list_next M name L A b B b' : lists M name L -> L = A ++ b :: B -> binding_answer M KGetNext b b' ->
  match B with c :: _ => b' = c | [] => b' = (fst b, TNull KEndOfMibView) end.
Proof.
  intros [S I] -> H. destruct (sorted_app _ _ _ S) as [X Y].
  assert (Ib : M (fst b) = Some (snd b) /\ (fst b = name \/ before name (fst b))) by (apply I; destruct b; apply in_or_app; right; left; reflexivity).
  assert (F : before (fst b) (fst b') -> M (fst b') = Some (snd b') -> In b' B).
  { intros Bf E. assert (J : In b' (A ++ b :: B)).
    { destruct b' as [n' v']. apply I. split; [exact E|right]. destruct (proj2 Ib) as [<-|Z]; [exact Bf|exact (before_trans _ _ _ Z Bf)]. }
    apply in_app_or in J as [J|[->|J]]; [|destruct (before_irrefl _ Bf)|exact J].
    destruct (before_irrefl _ (before_trans _ _ _ Bf (X _ J))). }
  destruct B as [|c B].
  - destruct H as [(Bf & E & _)|[-> _]]; [destruct (F Bf E)|reflexivity].
  - assert (Jc : In c (A ++ b :: c :: B)) by (apply in_or_app; right; right; left; reflexivity).
    assert (Bc : before (fst b) (fst c)) by (apply Y; left; reflexivity).
    assert (Ec : M (fst c) = Some (snd c)) by (destruct c; apply (proj1 (I _ _) Jc)).
    destruct H as [(Bf & E & Mi)|[_ N]]; [|rewrite (N _ Bc) in Ec; discriminate Ec].
    destruct (F Bf E) as [->|J]; [reflexivity|].
    assert (Bcb : before (fst c) (fst b')).
    { destruct (sorted_app (A ++ [b]) c B) as [_ Z]; [rewrite <- app_assoc; exact S|]. apply Z, J. }
    destruct (Mi (fst c) Bc ltac:(congruence)) as [E2|B2].
    + rewrite E2 in Bcb. destruct (before_irrefl _ Bcb).
    + destruct (before_irrefl _ (before_trans _ _ _ Bcb B2)).
Qed.

(** ** Events one by one *)
Lemma outsides_some x tr : outsides (Some x :: tr) = x :: outsides tr.
Proof. reflexivity. Qed.
Lemma pstep_some_settled p t args s o s' : pstep p t args s (Some o) = Some s' -> SpecTools.settled s.
Proof. destruct s as [st tab d out]. unfold pstep, SpecTools.settled. cbn [doing_of]. destruct d as [[]| |]; try discriminate; auto. Qed.
Lemma goes_split p t args a : forall b s s2, goes p t args s (a ++ b) s2 -> exists s1, goes p t args s a s1 /\ goes p t args s1 b s2.
Proof.
  intros b s s2 (tr & O & P & S). revert a s O P. induction tr as [|o tr IH]; intros a s O P.
  - cbn in O. destruct a, b; try discriminate O. cbn in P. injection P as ->. exists s2. split; exists []; auto.
  - cbn in P. destruct (pstep p t args s o) as [s'|] eqn:E; [|discriminate P]. destruct o as [x|].
    + rewrite outsides_some in O. destruct a as [|y a].
      * exists s. split; [exists []; split; [reflexivity|]; split; [reflexivity|eapply pstep_some_settled; exact E]|].
        exists (Some x :: tr). split; [rewrite outsides_some; exact O|]. split; [cbn; rewrite E; exact P|exact S].
      * injection O as -> O. destruct (IH a s' O P) as (s1 & (tr1 & O1 & P1 & S1) & G). exists s1. split; [|exact G].
        exists (Some y :: tr1). split; [rewrite outsides_some, O1; reflexivity|]. split; [cbn; rewrite E; exact P1|exact S1].
    + destruct (IH a s' O P) as (s1 & (tr1 & O1 & P1 & S1) & G). exists s1. split; [|exact G].
      exists (None :: tr1). split; [exact O1|]. split; [cbn; rewrite E; exact P1|exact S1].
Qed.
Lemma pstep_printed p t args s o s' : pstep p t args s o = Some s' -> exists l, printed s' = printed s ++ l.
Proof.
  destruct s as [st tab d out]. unfold pstep. intros H.
  destruct d as [[l k|a k|r]| |e], o as [[i|x]|]; try discriminate H.
  - injection H as <-. cbn. eauto.
  - destruct (step _ _ _); [|discriminate H]. injection H as <-. exists []. rewrite app_nil_r. reflexivity.
  - destruct (stack st); destruct r as [[]|]; try (destruct (step _ _ _); [|discriminate H]); injection H as <-; exists []; rewrite app_nil_r; reflexivity.
  - destruct (stack st) as [|[| | | |[|]] ?]; try discriminate H; destruct (step _ _ _); try discriminate H; injection H as <-; exists []; rewrite app_nil_r; reflexivity.
  - destruct (step _ _ _); [|discriminate H]. injection H as <-. exists []. rewrite app_nil_r. reflexivity.
Qed.
Lemma goes_printed p t args s ev s' : goes p t args s ev s' -> exists l, printed s' = printed s ++ l.
Proof.
  intros (tr & _ & P & _). revert s P. induction tr as [|o tr IH]; intros s P; cbn in P.
  - injection P as ->. exists []. rewrite app_nil_r. reflexivity.
  - destruct (pstep p t args s o) as [s1|] eqn:E; [|discriminate P]. destruct (pstep_printed _ _ _ _ _ _ E) as [l1 E1]. destruct (IH _ P) as [l2 E2].
    exists (l1 ++ l2). rewrite E2, E1, app_assoc. reflexivity.
Qed.
Lemma goes_first p t args s o s' : goes p t args s [o] s' -> SpecTools.settled s -> exists s1, pstep p t args s (Some o) = Some s1.
Proof.
  intros ([|[x|] tr] & O & P & _) St; [discriminate O| |].
  - rewrite outsides_some in O. injection O as -> _. cbn in P. destruct (pstep p t args s (Some o)) as [s1|]; [eauto|discriminate P].
  - cbn in P. destruct (pstep p t args s None) eqn:E; [|discriminate P]. destruct (pstep_settled _ _ _ _ _ St E).
Qed.
Lemma not_both p t args s i x s1 s2 : SpecTools.settled s -> goes p t args s [Finds i] s1 -> goes p t args s [Answers x] s2 -> False.
Proof.
  intros St G1 G2. destruct (goes_first _ _ _ _ _ _ G1 St) as (a & A). destruct (goes_first _ _ _ _ _ _ G2 St) as (b & B).
  destruct s as [st tab d out]. unfold pstep in A, B. destruct d as [[]| |]; try discriminate A.
  destruct st as [m stk lg]. cbn [stack step] in *. destruct stk as [|[| | | |[|]] ?]; discriminate.
Qed.
Lemma over_stays p t args s e o s' : doing_of s = Over e -> goes p t args s [o] s' -> False.
Proof.
  intros D G. destruct (goes_first _ _ _ _ _ _ G) as (a & A); [unfold SpecTools.settled; rewrite D; exact Logic.I|].
  destruct s as [st tab d out]. cbn [doing_of] in D. subst d. unfold pstep in A. destruct o; discriminate A.
Qed.
Lemma goes_settled p t args s ev s' : goes p t args s ev s' -> SpecTools.settled s'.
Proof. intros (tr & _ & _ & S). exact S. Qed.

(** ** Requests about to be sent *)
(** run() is about to send the one queued message, the octets [fst d], request [id]. *)
Definition sending (s : pstate) (id : Z) (d : str * address) : Prop :=
  exists m lg tab out msg, s = mkP (mkState m [FRun Sending] lg) tab Running out /\ outbound m = [(Some msg, snd d)] /\ snd (message_encode msg) = Ok (fst d) /\
    nextRequestID m = id + 1 /\ forall x cb, dict_get (callbacks m) x = Some cb <-> x = id /\ cb = Cb 0.
(** The same before the first poll. *)
Definition polling (s : pstate) (d : str * address) : Prop :=
  exists m lg tab out msg, s = mkP (mkState m [FRun Polling] lg) tab Running out /\ outbound m = [(Some msg, snd d)] /\ snd (message_encode msg) = Ok (fst d) /\
    nextRequestID m = 0 + 1 /\ forall x cb, dict_get (callbacks m) x = Some cb <-> x = 0 /\ cb = Cb 0.
(** Nothing is queued any more: the program will end. *)
Definition doomed (p : program) (args : list str) (s : pstate) : Prop :=
  forall x, exists s' e, goes p Text args s [Answers x] s' /\ doing_of s' = Over e /\ printed s' = printed s.
Lemma sending_goes p twice hex next args s id d x s' : tool p twice hex next -> sending s id d -> goes p Text args s [Answers x] s' ->
  printed s' = printed s /\ ((x = Ok tt /\ awaiting s' id /\ sent s' = sent s ++ [d]) \/ x <> Ok tt /\ exists e, doing_of s' = Over e).
Proof.
  intros To (m & lg & tab & out & msg & -> & O & E & N & C) G. pose proof To as (F & _ & Q & _ & De & _). destruct x as [[]|e].
  - assert (G' : goes p Text args (mkP (mkState m [FRun Sending] lg) tab Running out) [Answers (Ok tt)]
       (mkP (mkState (mkMgr (nextRequestID m) [] (callbacks m)) [FRun Polling] (lg ++ [ETake (Some msg) (snd d); ESend (fst d) (snd d) (Ok tt)])) tab Running out)).
    { exists [Some (Answers (Ok tt))]. split; [reflexivity|]. split; [cbn [psteps]; rewrite (send_step p args m lg tab out msg (snd d) (fst d) F O E); reflexivity|exact Logic.I]. }
    rewrite (goes_deterministic _ _ _ _ _ _ _ G G'). split; [reflexivity|]. left. split; [reflexivity|]. split.
    + unfold awaiting. cbn [doing_of st_of stack man outbound nextRequestID]. split; [reflexivity|]. split; [reflexivity|]. split; [reflexivity|]. split; [exact N|]. exact C.
    + unfold sent, sends. cbn [st_of log]. rewrite flat_map_app. destruct d. reflexivity.
  - assert (D : e = QueueEmpty \/ e <> QueueEmpty) by (destruct e; auto; right; discriminate). destruct D as [->|D].
    + assert (G' : exists s2 e', goes p Text args (mkP (mkState m [FRun Sending] lg) tab Running out) [Answers (Err QueueEmpty)] s2 /\ doing_of s2 = Over e' /\ printed s2 = out).
      { eexists. exists SystemExit. split; [|split].
        - exists [Some (Answers (Err QueueEmpty)); None]. split; [reflexivity|]. split.
          + cbn [psteps]. unfold pstep at 1. cbn [step]. unfold send_called, system_of. cbn [trans sendto]. rewrite O, E. cbn [queueEmpty loop_empty]. unfold loop_empty. cbn [queueEmpty]. rewrite Q.
            unfold resume at 1. cbn [stack]. rewrite De. unfold exit0, pstep. cbn [stack step]. unfold run_raises, resume. cbn [stack log]. rewrite rev_app_distr. cbn [rev app]. reflexivity.
          + exact Logic.I.
        - reflexivity.
        - reflexivity. }
      destruct G' as (s2 & e' & G' & D2 & P2). rewrite (goes_deterministic _ _ _ _ _ _ _ G G'). split; [exact P2|]. right. split; [discriminate|eauto].
    + assert (G' : exists s2 e', goes p Text args (mkP (mkState m [FRun Sending] lg) tab Running out) [Answers (Err e)] s2 /\ doing_of s2 = Over e' /\ printed s2 = out).
      { eexists. exists e. split; [|split].
        - exists [Some (Answers (Err e))]. split; [reflexivity|]. split.
          + cbn [psteps]. unfold pstep at 1. cbn [step]. unfold send_called, system_of. cbn [trans sendto]. rewrite O, E.
            replace (match e with QueueEmpty => _ | _ => run_raises _ _ _ _ end) with
              (run_raises (mkMgr (nextRequestID m) [] (callbacks m)) e [] ((lg ++ [ETake (Some msg) (snd d)]) ++ [ESend (fst d) (snd d) (Err e)])) by (destruct e; congruence || reflexivity).
            unfold run_raises, resume. cbn [stack log]. rewrite rev_app_distr. cbn [rev app]. reflexivity.
          + exact Logic.I.
        - reflexivity.
        - reflexivity. }
      destruct G' as (s2 & e' & G' & D2 & P2). rewrite (goes_deterministic _ _ _ _ _ _ _ G G'). split; [exact P2|]. right. split; [discriminate|eauto].
Qed.
Lemma sending_no_finds p args s id d i s' : sending s id d -> goes p Text args s [Finds i] s' -> False.
Proof.
  intros (m & lg & tab & out & msg & -> & _) G. destruct (goes_first _ _ _ _ _ _ G Logic.I) as (a & A). discriminate A.
Qed.
Lemma waiting_no_answers p args s x s' : stack (st_of s) = [FRun Polling] -> doing_of s = Running -> goes p Text args s [Answers x] s' -> False.
Proof.
  intros K D G. destruct (goes_first _ _ _ _ _ _ G) as (a & A); [unfold SpecTools.settled; rewrite D; exact Logic.I|].
  destruct s as [[m stk lg] tab d out]. cbn [st_of stack doing_of] in *. subst stk d. discriminate A.
Qed.
Lemma polling_goes p twice hex next args s d i s' : tool p twice hex next -> polling s d -> i = Nothing \/ (exists e, i = SocketError e) -> goes p Text args s [Finds i] s' ->
  printed s' = printed s /\ sent s' = sent s /\ (i = Nothing /\ sending s' 0 d \/ i <> Nothing /\ ((exists e, doing_of s' = Over e) \/ doomed p args s')).
Proof.
  intros To (m & lg & tab & out & msg & -> & O & E & N & C) Hi G. pose proof To as (F & _ & Q & _ & De & _). destruct Hi as [->|[e ->]].
  - assert (G' : goes p Text args (mkP (mkState m [FRun Polling] lg) tab Running out) [Finds Nothing] (mkP (mkState m [FRun Sending] lg) tab Running out)).
    { exists [Some (Finds Nothing)]. split; [reflexivity|]. split; [reflexivity|exact Logic.I]. }
    rewrite (goes_deterministic _ _ _ _ _ _ _ G G'). split; [reflexivity|]. split; [reflexivity|]. left. split; [reflexivity|]. exists m, lg, tab, out, msg. auto.
  - assert (D : e = QueueEmpty \/ e <> QueueEmpty) by (destruct e; auto; right; discriminate).
    assert (G' : exists s2 e', goes p Text args (mkP (mkState m [FRun Polling] lg) tab Running out) [Finds (SocketError e)] s2 /\ doing_of s2 = Over e' /\ printed s2 = out /\ sends (log (st_of s2)) = sends lg).
    { destruct D as [->|D].
      - eexists. exists SystemExit. split; [|split; [|split]].
        + exists [Some (Finds (SocketError QueueEmpty)); None]. split; [reflexivity|]. split.
          * cbn [psteps]. unfold pstep at 1. cbn [step poll_called stack asyncore_read handle_error poll_returns system_of flav]. rewrite F. unfold loop_empty, system_of. cbn [queueEmpty]. rewrite Q.
            unfold resume at 1. cbn [stack touches]. rewrite De. unfold exit0, pstep. cbn [stack step]. unfold run_raises, resume. cbn [stack log]. rewrite rev_app_distr. cbn [rev app]. reflexivity.
          * exact Logic.I.
        + reflexivity.
        + reflexivity.
        + unfold sends. cbn [st_of log]. rewrite !flat_map_app. cbn. rewrite !app_nil_r. reflexivity.
      - eexists. exists e. split; [|split; [|split]].
        + exists [Some (Finds (SocketError e))]. split; [reflexivity|]. split.
          * assert (AR : asyncore_read (Err e) = Err e) by (destruct e; reflexivity).
            assert (PR : poll_returns (system_of p Text) m (Err e) [FRun Polling] lg = run_raises m e [] lg)
              by (cbn [poll_returns system_of flav]; rewrite F; destruct e; congruence || reflexivity).
            cbn [psteps]. unfold pstep. cbn [step poll_called stack]. rewrite AR, PR. unfold run_raises, resume. cbn [stack log]. rewrite rev_app_distr. cbn [rev app]. reflexivity.
          * exact Logic.I.
        + reflexivity.
        + reflexivity.
        + unfold sends. cbn [st_of log]. rewrite !flat_map_app. cbn. rewrite !app_nil_r. reflexivity. }
    destruct G' as (s2 & e' & G' & D2 & P2 & S2). rewrite (goes_deterministic _ _ _ _ _ _ _ G G'). split; [exact P2|]. split; [exact S2|]. right. split; [discriminate|left; eauto].
Qed.
Lemma doomed_goes p args s o s' : SpecTools.settled s -> doomed p args s -> goes p Text args s [o] s' -> printed s' = printed s /\ exists e, doing_of s' = Over e.
Proof.
  intros St D G. destruct o as [i|x].
  - destruct (D (Ok tt)) as (s2 & e & G2 & _). destruct (not_both _ _ _ _ _ _ _ _ St G G2).
  - destruct (D x) as (s2 & e & G2 & D2 & P2). rewrite (goes_deterministic _ _ _ _ _ _ _ G G2). eauto.
Qed.
(** Only an answer to the outstanding request keeps it alive (as C66_one_chance). *)
Lemma no_chance p twice hex next args s id i s' : tool p twice hex next -> awaiting s id ->
  (forall depth os src msg, i = Datagram depth os src -> message_decode (reg_of Upto1905) depth CMessage_v2 (DStr os) = Ok msg -> ~ carries msg id) ->
  goes p Text args s [Finds i] s' -> printed s' = printed s /\ ((exists e, doing_of s' = Over e) \/ doomed p args s').
Proof.
  intros To A N G.
  assert (H : forall x, exists s2 e ev, (ev = [] \/ ev = [Answers x]) /\ goes p Text args s (Finds i :: ev) s2 /\ ended s2 e (printed s) (sent s)).
  { intros x. destruct (one_chance p twice hex next args s id i x To A) as [(depth & os & src & msg & -> & D & Ca)|H]; [|exact H]. destruct (N _ _ _ _ eq_refl D Ca). }
  destruct (goes_printed _ _ _ _ _ _ G) as [l1 L1].
  assert (P : printed s' = printed s).
  { destruct (H (Ok tt)) as (s2 & e & ev & [->| ->] & G2 & D2 & P2 & _).
    - rewrite (goes_deterministic _ _ _ _ _ _ _ G G2). exact P2.
    - destruct (goes_split p Text args [Finds i] [Answers (Ok tt)] _ _ G2) as (s1 & G1 & G3). rewrite (goes_deterministic _ _ _ _ _ _ _ G1 G) in G3.
      destruct (goes_printed _ _ _ _ _ _ G3) as [l2 L2]. rewrite P2, L1, <- app_assoc in L2. rewrite <- (app_nil_r (printed s)) in L2 at 1. apply app_inv_head in L2.
      destruct l1; [|discriminate L2]. rewrite L1, app_nil_r. reflexivity. }
  split; [exact P|].
  destruct (doing_of s') as [k| |e] eqn:D; [exfalso; pose proof (goes_settled _ _ _ _ _ _ G) as X; unfold SpecTools.settled in X; rewrite D in X; exact X| |left; eauto].
  right. intros x. destruct (H x) as (s2 & e & ev & [->| ->] & G2 & D2 & P2 & _).
  - rewrite <- (goes_deterministic _ _ _ _ _ _ _ G G2) in D2. congruence.
  - destruct (goes_split p Text args [Finds i] [Answers x] _ _ G2) as (s1 & G1 & G3). rewrite (goes_deterministic _ _ _ _ _ _ _ G1 G) in G3.
    exists s2, e. split; [exact G3|]. split; [exact D2|congruence].
Qed.
