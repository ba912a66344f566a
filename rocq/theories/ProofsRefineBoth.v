(** * Objects and values side by side: each run has its counterpart *)
From Coq Require Import ZArith List Bool Lia.
From Verif Require Import PyBase Classes Values Codec Manager Heap SpecHeap SpecRefine.
From Verif Require Import ProofsHeap ProofsHeapKeep ProofsHeapCall ProofsHeapRun ProofsHeapMake ProofsHeapValue ProofsHeapRecv ProofsRefine ProofsRefineCall ProofsRefineRun ProofsRefineStep.
Import ListNotations.
Open Scope Z_scope.

Lemma together_app sys s st p s1 st1 q s2 st2 : together sys s st p s1 st1 -> together sys s1 st1 q s2 st2 -> together sys s st (p ++ q) s2 st2.
Proof. induction 1; cbn [app]; intros X; [exact X|]. econstructor; try eassumption. auto. Qed.
Lemma together_one sys s st g l s1 st1 : in_step sys s st g l -> gmove sys s g = Some s1 -> vmove sys st l = Some st1 -> together sys s st [(g, l)] s1 st1.
Proof. intros. econstructor; try eassumption. constructor. Qed.
Lemma objects_app a b : objects_side (a ++ b) = objects_side a ++ objects_side b. Proof. unfold objects_side. apply flat_map_app. Qed.
Lemma values_app a b : values_side (a ++ b) = values_side a ++ values_side b. Proof. unfold values_side. apply flat_map_app. Qed.
Lemma together_good sys s st p s2 st2 : good s -> together sys s st p s2 st2 -> good s2.
Proof. intros G T. induction T; [exact G|]. apply IHT. eapply good_move; eassumption. Qed.

(** ** Every run on objects has its run on values *)

(** All that is on the stack are callbacks called by receiveData called by user code. *)
Definition flat (st : state) : Prop := forallb is_callback (stack st) = true.
Lemma flat_user st : flat st -> user_runs (stack st) = true.
Proof. unfold flat. destruct (stack st) as [|[] k]; cbn; congruence. Qed.
Lemma flat_filter st : flat st -> filter is_callback (stack st) = stack st.
Proof. unfold flat. induction (stack st) as [|f k IH]; cbn; [reflexivity|]. destruct (is_callback f); cbn; [|discriminate]. intros F. rewrite IH by exact F. reflexivity. Qed.
(** run() can be left by an exception. *)
Lemma back_out sys s m rest lg : forallb is_callback rest = true -> exists pairs st1, together sys s (loop_empty sys m rest lg) pairs s st1 /\ objects_side pairs = [] /\ flat st1.
Proof.
  intros F. unfold loop_empty, run_raises. destruct (queueEmpty sys) as [[|n]|].
  - exists [], (mkState m rest (lg ++ [EResult (Err TypeError)])). split; [constructor|]. split; [reflexivity|exact F].
  - exists [(None, Some (LRaise OSError))]. eexists. split; [eapply together_one; [cbn; eauto|reflexivity|reflexivity]|]. split; [reflexivity|exact F].
  - exists [(None, Some (LPoll (SocketError OSError)))]. eexists. split; [eapply together_one; [exact Logic.I|reflexivity|cbn; reflexivity]|]. split; [reflexivity|exact F].
Qed.
Lemma one_send sys s st fuel s1 : good s -> agrees sys s st -> flat st -> gstep sys s (LSend fuel) = Some s1 ->
  exists pairs st1, together sys s st pairs s1 st1 /\ objects_side pairs = [LSend fuel] /\ flat st1.
Proof.
  intros Gs Ag Fl E. pose proof (flat_user _ Fl) as U. pose proof Ag as (_ & _ & C & _). destruct st as [m stk lg]. cbn [man stack log] in *.
  assert (Ne : outbound m <> []) by (cbn [gstep] in E; destruct (h_out s); [discriminate|]; inversion C; subst; discriminate).
  assert (Start : exists pairs, together sys s (mkState m stk lg) pairs s (mkState m (FRun Sending :: stk) lg) /\ objects_side pairs = []).
  { destruct (flav sys) eqn:Fv.
    - exists [(None, Some LRun)]. split; [|reflexivity]. eapply together_one; [exact Logic.I|reflexivity|]. cbn. rewrite U, Fv. reflexivity.
    - exists [(None, Some LRun)]. split; [|reflexivity]. eapply together_one; [exact Logic.I|reflexivity|]. cbn. rewrite U, Fv. reflexivity.
    - exists [(None, Some LRun); (None, Some (LPoll Nothing))]. split; [|reflexivity]. econstructor; [exact Logic.I|reflexivity|cbn; rewrite U, Fv; reflexivity|].
      eapply together_one; [exact Logic.I|reflexivity|]. cbn. reflexivity. }
  destruct Start as (p0 & T0 & O0).
  assert (Mid : exists st1, vmove sys (mkState m (FRun Sending :: stk) lg) (Some (Manager.LSend (Err OSError))) = Some st1 /\ (flat st1 \/ exists m' lg', st1 = loop_empty sys m' stk lg')).
  { eexists. split; [reflexivity|]. unfold send_called. destruct (outbound m) as [|[om dst] q]; [congruence|]. cbn zeta.
    destruct (match om with Some msg => snd (message_encode msg) | None => Err AttributeError end) as [os|e].
    - replace (sendto (trans sys) (Err OSError)) with (@Err unit (match trans sys with Real => TypeError | Text => OSError end)) by (destruct (trans sys); reflexivity).
      left. destruct (trans sys); exact Fl.
    - destruct e; try (left; exact Fl). right. eauto. }
  destruct Mid as (st1 & Ev & Fin).
  assert (T1 : together sys s (mkState m (FRun Sending :: stk) lg) [(Some (LSend fuel), Some (Manager.LSend (Err OSError)))] s1 st1) by (eapply together_one; [exact Ne|exact E|exact Ev]).
  destruct Fin as [Fin|(m' & lg' & ->)].
  - exists (p0 ++ [(Some (LSend fuel), Some (Manager.LSend (Err OSError)))]), st1. split; [eapply together_app; eassumption|]. split; [rewrite objects_app, O0; reflexivity|exact Fin].
  - destruct (back_out sys s1 m' stk lg' Fl) as (p2 & st2 & T2 & O2 & F2).
    exists (p0 ++ [(Some (LSend fuel), Some (Manager.LSend (Err OSError)))] ++ p2), st2. split; [eapply together_app; [exact T0|]; eapply together_app; eassumption|].
    split; [rewrite !objects_app, O0, O2; reflexivity|exact F2].
Qed.
Lemma flat_receive sys m r stk lg : forallb is_callback stk = true -> flat (receive_returns sys m r stk lg).
Proof. intros F. unfold receive_returns. destruct stk as [|[] k]; cbn in *; try discriminate; exact F. Qed.
Lemma one_step sys s st l s1 : good s -> agrees sys s st -> flat st -> no_change sys s l -> gstep sys s l = Some s1 ->
  exists pairs st1, together sys s st pairs s1 st1 /\ objects_side pairs = [l] /\ flat st1.
Proof.
  intros Gs Ag Fl Nc E. pose proof (flat_user _ Fl) as U. destruct l as [c|x|x c|a|fuel|depth d| |e].
  - exists [(Some (UNew c), None)], st. split; [eapply together_one; [exact Logic.I|exact E|reflexivity]|auto].
  - exists [(Some (URead x), None)], st. split; [eapply together_one; [exact Logic.I|exact E|reflexivity]|auto].
  - contradiction.
  - destruct Nc as [(va & V)|(r & V)].
    + exists [(Some (UCall a), Some (LCall va))]. destruct st as [m stk lg]. cbn [stack] in U. destruct (do_call (flav sys) va m) as [m' r'] eqn:Ed. eexists. split; [eapply together_one; [exact V|exact E|]|split; [reflexivity|]].
      * cbn [vmove step]. rewrite U, Ed. reflexivity.
      * exact Fl.
    + exists [(Some (UCall a), None)], st. split; [eapply together_one; [cbn; eauto|exact E|reflexivity]|auto].
  - eapply one_send; eassumption.
  - destruct st as [m stk lg]. cbn [stack] in U. exists [(Some (LReceive depth d), Some (Manager.LReceive depth d ([], 0)))]. eexists.
    split; [eapply together_one; [split; reflexivity|exact E|cbn; rewrite U; reflexivity]|]. split; [reflexivity|].
    unfold receive_called. destruct (receiveData sys m depth d) as [[r|id cb|cb] [msg|]]; try exact Fl; apply flat_receive; exact Fl.
  - pose proof Ag as (_ & _ & _ & K & _). rewrite (flat_filter _ Fl) in K. destruct st as [m stk lg]. cbn [stack] in *. cbn [gstep] in E. destruct (h_stack s) as [|g k] eqn:Hs; [discriminate|].
    inversion K as [|? fr ? rest Fr _]; subst. unfold flat in Fl. cbn [stack forallb] in Fl. apply andb_prop in Fl as [Fc Fl].
    assert (E' : gmove sys s (Some UReturn) = Some s1) by (cbn [gmove gstep]; rewrite Hs; exact E).
    exists [(Some UReturn, Some LReturn)]. destruct fr as [id| | | |]; try discriminate Fc.
    + destruct (after_response (flav sys) m id (Ok tt)) as [m' r] eqn:Ea. eexists. split; [eapply together_one; [cbn; eauto|exact E'|cbn [vmove step]; rewrite Ea; reflexivity]|]. split; [reflexivity|]. apply flat_receive. exact Fl.
    + eexists. split; [eapply together_one; [cbn; eauto|exact E'|reflexivity]|]. split; [reflexivity|]. apply flat_receive. exact Fl.
  - pose proof Ag as (_ & _ & _ & K & _). rewrite (flat_filter _ Fl) in K. destruct st as [m stk lg]. cbn [stack] in *. cbn [gstep] in E. destruct (h_stack s) as [|g k] eqn:Hs; [discriminate|].
    inversion K as [|? fr ? rest Fr _]; subst. unfold flat in Fl. cbn [stack forallb] in Fl. apply andb_prop in Fl as [Fc Fl].
    assert (E' : gmove sys s (Some (URaise e)) = Some s1) by (cbn [gmove gstep]; rewrite Hs; exact E).
    exists [(Some (URaise e), Some (LRaise e))]. destruct fr as [id| | | |]; try discriminate Fc.
    + eexists. split; [eapply together_one; [cbn; eauto|exact E'|reflexivity]|]. split; [reflexivity|]. apply flat_receive. exact Fl.
    + eexists. split; [eapply together_one; [cbn; eauto|exact E'|reflexivity]|]. split; [reflexivity|]. apply flat_receive. exact Fl.
Qed.
Lemma every_run sys s tr s2 : unchanging sys s tr s2 -> forall st, good s -> agrees sys s st -> flat st ->
  exists pairs st2, together sys s st pairs s2 st2 /\ objects_side pairs = tr /\ flat st2.
Proof.
  induction 1 as [s|s l s1 tr s2 Nc E _ IH]; intros st Gs Ag Fl; [exists [], st; split; [constructor|auto]|].
  destruct (one_step sys s st l s1 Gs Ag Fl Nc E) as (p & st1 & T & O & F1).
  destruct (IH st1) as (q & st2 & T2 & O2 & F2); [eapply together_good; eassumption|eapply together_agrees; eassumption|exact F1|].
  exists (p ++ q), st2. split; [eapply together_app; eassumption|]. split; [rewrite objects_app, O, O2; reflexivity|exact F2].
Qed.

(** ** Every run on values has its run on objects *)

(** User code can make an object of any proper value. *)
Definition only_new (s s' : hstate) : Prop :=
  (exists t, hp s' = hp s ++ t) /\ (forall l, In l (known s) -> In l (known s')).
Lemma only_new_refl s : only_new s s. Proof. split; [exists []; rewrite app_nil_r; reflexivity|auto]. Qed.
Lemma only_new_trans a b c : only_new a b -> only_new b c -> only_new a c.
Proof. intros [(t & E) K] [(u & F) L]. split; [exists (t ++ u); rewrite F, E, app_assoc; reflexivity|auto]. Qed.
Lemma only_new_now a b i v : only_new a b -> now (hp a) i v -> now (hp b) i v. Proof. intros [(t & ->) _]. apply now_ext. Qed.
Lemma only_new_has a b i : only_new a b -> has a i -> has b i. Proof. intros [_ K] X l J. apply K, X, J. Qed.
Lemma knows_of s l : (forall x, In x l -> In x (known s)) -> knows s l = true.
Proof. intros X. unfold knows. apply forallb_forall. intros x J. apply existsb_exists. exists x. split; [apply X; exact J|apply Nat.eqb_refl]. Qed.
Lemma new_one sys s st c : (forall x, In x (refs c) -> In x (known s)) ->
  exists s', together sys s st [(Some (UNew c), None)] s' st /\ hp s' = hp s ++ [c] /\ only_new s s' /\ has s' (IRef (length (hp s))).
Proof.
  intros K. eexists. split; [eapply together_one; [exact Logic.I|cbn [gmove gstep]; rewrite (knows_of _ _ K); reflexivity|reflexivity]|]. cbn. split; [reflexivity|]. split.
  - split; [exists [c]; reflexivity|]. intros l J. right. exact J.
  - intros l [<-|[]]. left. reflexivity.
Qed.
Definition makes sys (s : hstate) (st : state) (v : val) : Prop :=
  exists pairs s' i, together sys s st pairs s' st /\ values_side pairs = [] /\ only_new s s' /\ now (hp s') i v /\ has s' i.
Definition makes_all sys (s : hstate) (st : state) (vs : list val) : Prop :=
  exists pairs s' is, together sys s st pairs s' st /\ values_side pairs = [] /\ only_new s s' /\ all_now (hp s') is vs /\ (forall i, In i is -> has s' i).
Lemma make_list sys st vs : (forall x, In x vs -> proper x -> forall s, makes sys s st x) -> (fix all (l : list val) : Prop := match l with [] => True | x :: r => proper x /\ all r end) vs -> forall s, makes_all sys s st vs.
Proof.
  induction vs as [|x vs IH]; intros Hx P s; [exists [], s, []; split; [constructor|]; split; [reflexivity|]; split; [apply only_new_refl|]; split; [constructor|intros i []]|].
  destruct P as [P1 P2]. destruct (Hx x (or_introl eq_refl) P1 s) as (p & s1 & i & T & V & O & N & K).
  destruct (IH (fun y J => Hx y (or_intror J)) P2 s1) as (q & s2 & is & T2 & V2 & O2 & N2 & K2).
  exists (p ++ q), s2, (i :: is). split; [eapply together_app; eassumption|]. split; [rewrite values_app, V, V2; reflexivity|]. split; [eapply only_new_trans; eassumption|].
  split; [constructor; [eapply only_new_now; eassumption|exact N2]|]. intros j [<-|J]; [eapply only_new_has; eassumption|auto].
Qed.
Lemma refs_list is s : (forall i, In i is -> has s i) -> forall x, In x (refs (PList is)) -> In x (known s).
Proof. intros K x J. unfold refs in J. cbn in J. apply in_flat_map in J as (i & Ji & Jx). eapply K; eassumption. Qed.
Lemma make_one sys st : forall v, proper v -> forall s, makes sys s st v.
Proof.
  fix IH 1. intros v P s.
  assert (ALL : forall l, (forall x, In x l -> proper x -> forall s, makes sys s st x) -> True) by auto. clear ALL.
  assert (Two : forall s0 pairs0 c is vs, together sys s st pairs0 s0 st -> values_side pairs0 = [] -> only_new s s0 -> all_now (hp s0) is vs -> (forall i, In i is -> has s0 i) -> forall mk : loc -> list (attr * item),
      (forall a x, In x (refs (PObj c (mk a))) -> x = a) -> exists pairs s' a, together sys s st pairs s' st /\ values_side pairs = [] /\ only_new s s' /\ all_now (hp s') is vs /\ nth_error (hp s') a = Some (PList is) /\ 
        nth_error (hp s') (S a) = Some (PObj c (mk a)) /\ has s' (IRef (S a))).
  { intros s0 p0 c is vs T0 V0 O0 N0 K0 mk Hm. destruct (new_one sys s0 st (PList is)) as (s1 & T1 & H1 & O1 & K1); [apply refs_list; exact K0|].
    destruct (new_one sys s1 st (PObj c (mk (length (hp s0))))) as (s2 & T2 & H2 & O2 & K2).
    { intros x J. apply Hm in J. subst x. apply K1. left. reflexivity. }
    exists (p0 ++ [(Some (UNew (PList is)), None)] ++ [(Some (UNew (PObj c (mk (length (hp s0))))), None)]), s2, (length (hp s0)).
    split; [eapply together_app; [exact T0|]; eapply together_app; eassumption|]. split; [rewrite !values_app, V0; reflexivity|].
    split; [eapply only_new_trans; [exact O0|]; eapply only_new_trans; eassumption|]. rewrite H2, H1. split; [apply all_now_ext, all_now_ext; exact N0|].
    split; [apply nth_ext, nth_new|]. split; [|rewrite H1, app_length in K2; cbn in K2; rewrite Nat.add_1_r in K2; exact K2].
    replace (S (length (hp s0))) with (length (hp s0 ++ [PList is])) by (rewrite app_length; cbn; lia). apply nth_new. }
  destruct v as [|z|t|l|c z|c w|[zs|]|c|c l].
  - exists [], s, INone. split; [constructor|]. split; [reflexivity|]. split; [apply only_new_refl|]. split; [constructor|intros x []].
  - exists [], s, (IInt z). split; [constructor|]. split; [reflexivity|]. split; [apply only_new_refl|]. split; [constructor|intros x []].
  - exists [], s, (IStr t). split; [constructor|]. split; [reflexivity|]. split; [apply only_new_refl|]. split; [constructor|intros x []].
  - destruct (make_list sys st l) with (s := s) as (p & s1 & is & T & V & O & N & K); [|exact P|].
    { clear - IH. induction l as [|y l IHl]; intros x J; [destruct J|]. destruct J as [<-|J]; [apply IH|apply IHl; exact J]. }
    destruct (new_one sys s1 st (PList is)) as (s2 & T2 & H2 & O2 & K2); [apply refs_list; exact K|].
    exists (p ++ [(Some (UNew (PList is)), None)]), s2, (IRef (length (hp s1))). split; [eapply together_app; eassumption|]. split; [rewrite values_app, V; reflexivity|].
    split; [eapply only_new_trans; eassumption|]. split; [rewrite H2; apply now_new_list; exact N|exact K2].
  - destruct (new_one sys s st (PObj c [(Avalue, IInt z)])) as (s2 & T2 & H2 & O2 & K2); [intros x []|].
    eexists _, s2, _. split; [exact T2|]. split; [reflexivity|]. split; [exact O2|]. split; [|exact K2]. rewrite H2. eapply st_integer; [exact Logic.I|apply nth_new|exact P|reflexivity].
  - destruct P as [Kc P]. destruct (IH w P s) as (p & s1 & i & T & V & O & N & K).
    destruct (new_one sys s1 st (PObj c [(Avalue, i)])) as (s2 & T2 & H2 & O2 & K2).
    { intros x J. unfold refs in J. cbn in J. rewrite app_nil_r in J. apply K. exact J. }
    exists (p ++ [(Some (UNew (PObj c [(Avalue, i)])), None)]), s2, (IRef (length (hp s1))). split; [eapply together_app; eassumption|]. split; [rewrite values_app, V; reflexivity|].
    split; [eapply only_new_trans; eassumption|]. split; [|exact K2]. rewrite H2. eapply st_octets; [exact Logic.I|apply nth_new|exact Kc|reflexivity|apply now_ext; exact N].
  - destruct (Two s [] CObjectID (map IInt zs) (map VPyInt zs)) with (mk := fun a => [(Avalue, IRef a)]) as (p & s2 & a & T & V & O & N & N1 & N2 & K).
    + constructor. + reflexivity. + apply only_new_refl.
    + clear. induction zs; cbn; constructor; [constructor|assumption].
    + intros i J l Jl. apply in_map_iff in J as (z & <- & _). destruct Jl.
    + intros a x J. cbn in J. destruct J as [->|[]]; reflexivity.
    + exists p, s2, (IRef (S a)). repeat (split; [assumption|]). split; [|exact K]. eapply st_arcs; [exact Logic.I|exact N2|reflexivity|reflexivity|exact Logic.I|exact N1].
  - destruct (new_one sys s st (PObj CObjectID [(Avalue, INone)])) as (s2 & T2 & H2 & O2 & K2); [intros x []|].
    eexists _, s2, _. split; [exact T2|]. split; [reflexivity|]. split; [exact O2|]. split; [|exact K2]. rewrite H2. eapply st_noarcs; [exact Logic.I|apply nth_new|reflexivity|reflexivity].
  - destruct (new_one sys s st (PObj c [])) as (s2 & T2 & H2 & O2 & K2); [intros x []|].
    eexists _, s2, _. split; [exact T2|]. split; [reflexivity|]. split; [exact O2|]. split; [|exact K2]. rewrite H2. eapply st_null; [exact Logic.I|apply nth_new|exact P].
  - destruct P as [Kc P]. destruct (make_list sys st l) with (s := s) as (p & s1 & is & T & V & O & N & K); [|exact P|].
    { clear - IH. induction l as [|y l IHl]; intros x J; [destruct J|]. destruct J as [<-|J]; [apply IH|apply IHl; exact J]. }
    destruct (Two s1 p c is l T V O N K (fun a => [(Avalue, IRef a)])) as (p' & s2 & a & T' & V' & O' & N' & N1 & N2 & K').
    + intros a x J. cbn in J. destruct J as [->|[]]; reflexivity.
    + exists p', s2, (IRef (S a)). repeat (split; [assumption|]). split; [|exact K']. eapply st_seq; [exact Logic.I|exact N2|exact Kc|reflexivity|exact Logic.I|exact N1|exact N'].
Qed.
Lemma proper_plain v : proper v -> plain v. Proof. destruct v; cbn; auto. intros [K _]. exact K. Qed.
Lemma call_move sys s a : (forall i, In i (call_items a) -> has s i) -> exists s1, gmove sys s (Some (UCall a)) = Some s1.
Proof.
  intros K. cbn [gmove gstep]. rewrite knows_of; [|intros x J; apply in_flat_map in J as (i & Ji & Jx); exact (K i Ji x Jx)].
  destruct (g_call (flav sys) a s) as [s' r]. eexists. reflexivity.
Qed.
Lemma arg_new a b i v : only_new a b -> arg (hp a) i v -> arg (hp b) i v. Proof. intros O [N P]. split; [eapply only_new_now; eassumption|exact P]. Qed.
Lemma make_arg sys st v s : proper v -> exists pairs s' i, together sys s st pairs s' st /\ values_side pairs = [] /\ only_new s s' /\ arg (hp s') i v /\ has s' i.
Proof. intros P. destruct (make_one sys st v P s) as (p & s' & i & T & V & O & N & K). exists p, s', i. repeat (split; [assumption|]). split; [split; [exact N|apply proper_plain; exact P]|exact K]. Qed.
Lemma one_call sys s st a st1 : sound_call (flav sys) a -> step sys st (LCall a) = Some st1 -> exists pairs s1, together sys s st pairs s1 st1 /\ values_side pairs = [LCall a].
Proof.
  intros Sc E.
  assert (Fin : forall pairs s' b, together sys s st pairs s' st -> values_side pairs = [] -> call_value (flav sys) (hp s') b a -> (forall i, In i (call_items b) -> has s' i) ->
    exists pairs s1, together sys s st pairs s1 st1 /\ values_side pairs = [LCall a]).
  { intros p s' b T V Cv K. destruct (call_move sys s' b K) as (s1 & Em). exists (p ++ [(Some (UCall b), Some (LCall a))]), s1.
    split; [eapply together_app; [exact T|]; eapply together_one; [exact Cv|exact Em|exact E]|]. rewrite values_app, V. reflexivity. }
  destruct a as [oid dst cb com ver|vbl dst cb com ver|vbl dst cb com|oid ty v dst cb com ver|dst pdu com ver| | | |]; cbn in Sc; try contradiction.
  - destruct Sc as (P1 & Oa & P2). destruct (make_arg sys st oid s P1) as (p1 & s1 & i1 & T1 & V1 & O1 & A1 & K1). destruct (make_arg sys st com s1 P2) as (p2 & s2 & i2 & T2 & V2 & O2 & A2 & K2).
    eapply (Fin (p1 ++ p2) s2 (HGet i1 dst cb i2 ver)); [eapply together_app; eassumption|rewrite values_app, V1, V2; reflexivity| |].
    + constructor; [eapply arg_new; eassumption|exact Oa|exact A2].
    + cbn. intros i [<-|[<-|[]]]; [eapply only_new_has; eassumption|exact K2].
  - destruct Sc as (P1 & P2). destruct (make_arg sys st vbl s P1) as (p1 & s1 & i1 & T1 & V1 & O1 & A1 & K1). destruct (make_arg sys st com s1 P2) as (p2 & s2 & i2 & T2 & V2 & O2 & A2 & K2).
    eapply (Fin (p1 ++ p2) s2 (HGetNext i1 dst cb i2 ver)); [eapply together_app; eassumption|rewrite values_app, V1, V2; reflexivity| |].
    + constructor; [eapply arg_new; eassumption|exact A2].
    + cbn. intros i [<-|[<-|[]]]; [eapply only_new_has; eassumption|exact K2].
  - destruct Sc as (P1 & P2). destruct (make_arg sys st vbl s P1) as (p1 & s1 & i1 & T1 & V1 & O1 & A1 & K1). destruct (make_arg sys st com s1 P2) as (p2 & s2 & i2 & T2 & V2 & O2 & A2 & K2).
    eapply (Fin (p1 ++ p2) s2 (HSetBindings i1 dst cb i2)); [eapply together_app; eassumption|rewrite values_app, V1, V2; reflexivity| |].
    + constructor; [eapply arg_new; eassumption|exact A2].
    + cbn. intros i [<-|[<-|[]]]; [eapply only_new_has; eassumption|exact K2].
  - destruct Sc as (P1 & L1 & P3 & L3 & P2). destruct (make_arg sys st oid s P1) as (p1 & s1 & i1 & T1 & V1 & O1 & A1 & K1). destruct (make_arg sys st v s1 P3) as (p3 & s3 & i3 & T3 & V3 & O3 & A3 & K3).
    destruct (make_arg sys st com s3 P2) as (p2 & s2 & i2 & T2 & V2 & O2 & A2 & K2). pose proof (only_new_trans _ _ _ O3 O2) as O32.
    eapply (Fin ((p1 ++ p3) ++ p2) s2 (HSetTyped i1 ty i3 dst cb i2 ver)); [eapply together_app; [eapply together_app; eassumption|eassumption]|rewrite !values_app, V1, V2, V3; reflexivity| |].
    + constructor; [eapply arg_new; eassumption|exact L1|eapply arg_new; [exact O2|exact A3]|exact L3|exact A2].
    + cbn. intros i [<-|[<-|[<-|[]]]]; [eapply only_new_has; eassumption|eapply only_new_has; [exact O2|exact K3]|exact K2].
  - destruct Sc as (P1 & P2). destruct (make_arg sys st pdu s P1) as (p1 & s1 & i1 & T1 & V1 & O1 & A1 & K1). destruct (make_arg sys st com s1 P2) as (p2 & s2 & i2 & T2 & V2 & O2 & A2 & K2).
    eapply (Fin (p1 ++ p2) s2 (HTrap dst i1 i2 ver)); [eapply together_app; eassumption|rewrite values_app, V1, V2; reflexivity| |].
    + constructor; [eapply arg_new; eassumption|exact A2].
    + cbn. intros i [<-|[<-|[]]]; [eapply only_new_has; eassumption|exact K2].
Qed.
Lemma stack_top sys s st fr k : agrees sys s st -> stack st = fr :: k -> is_callback fr = true -> exists g k', h_stack s = g :: k'.
Proof. intros (_ & _ & _ & E & _) Hs Hc. rewrite Hs in E. cbn [filter] in E. rewrite Hc in E. inversion E; eauto. Qed.
Lemma one_value_step sys s st l st1 : agrees sys s st -> sound sys l -> step sys st l = Some st1 -> exists pairs s1, together sys s st pairs s1 st1 /\ values_side pairs = [l].
Proof.
  intros Ag Sd E. destruct l as [a|depth d src|[|depth o src|e]| |r| |e].
  - eapply one_call; [apply Sd; reflexivity|exact E].
  - exists [(Some (LReceive depth d), Some (Manager.LReceive depth d src))], (g_receive sys depth d s). split; [eapply together_one; [split; reflexivity|reflexivity|exact E]|reflexivity].
  - exists [(None, Some (LPoll Nothing))], s. split; [eapply together_one; [exact Logic.I|reflexivity|exact E]|reflexivity].
  - exists [(Some (LReceive depth (received (trans sys) o)), Some (LPoll (Datagram depth o src)))], (g_receive sys depth (received (trans sys) o) s). split; [eapply together_one; [split; reflexivity|reflexivity|exact E]|reflexivity].
  - exists [(None, Some (LPoll (SocketError e)))], s. split; [eapply together_one; [exact Logic.I|reflexivity|exact E]|reflexivity].
  - exists [(None, Some LRun)], s. split; [eapply together_one; [exact Logic.I|reflexivity|exact E]|reflexivity].
  - destruct (outbound (man st)) as [|p q] eqn:Eo.
    + exists [(None, Some (Manager.LSend r))], s. split; [eapply together_one; [exact Eo|reflexivity|exact E]|reflexivity].
    + pose proof Ag as (_ & _ & C & _). rewrite Eo in C. inversion C as [|[m dst] ? q' ? _ _ Eq]; subst.
      destruct (h_encode_message 0 m (hp s)) as [h o] eqn:En. eexists [(Some (LSend 0), Some (Manager.LSend r))], _. split; [eapply together_one|reflexivity].
      * cbn. rewrite Eo. discriminate.
      * cbn [gmove gstep]. rewrite <- Eq, En. reflexivity.
      * exact E.
  - destruct (stack st) as [|fr k] eqn:Hs; [destruct st; cbn in Hs; subst; discriminate|]. destruct (is_callback fr) eqn:Hc.
    + destruct (stack_top _ _ _ _ _ Ag Hs Hc) as (g & k' & Hg).
      assert (M : exists s1, gmove sys s (Some UReturn) = Some s1) by (cbn [gmove gstep]; rewrite Hg; destruct g; eauto). destruct M as (s1 & M).
      exists [(Some UReturn, Some LReturn)], s1. split; [eapply together_one; [cbn; eauto|exact M|exact E]|reflexivity].
    + destruct st as [m stk lg]. cbn in Hs. subst stk. destruct fr; try discriminate. exists [(None, Some LReturn)], s. split; [eapply together_one; [cbn; eauto|reflexivity|exact E]|reflexivity].
  - destruct (stack st) as [|fr k] eqn:Hs; [destruct st; cbn in Hs; subst; discriminate|]. destruct (is_callback fr) eqn:Hc.
    + destruct (stack_top _ _ _ _ _ Ag Hs Hc) as (g & k' & Hg).
      assert (M : exists s1, gmove sys s (Some (URaise e)) = Some s1) by (cbn [gmove gstep]; rewrite Hg; destruct g; eauto). destruct M as (s1 & M).
      exists [(Some (URaise e), Some (LRaise e))], s1. split; [eapply together_one; [cbn; eauto|exact M|exact E]|reflexivity].
    + destruct st as [m stk lg]. cbn in Hs. subst stk. destruct fr; try discriminate. exists [(None, Some (LRaise e))], s. split; [eapply together_one; [cbn; eauto|reflexivity|exact E]|reflexivity].
Qed.
Lemma every_value_run sys : forall tr s st st2, good s -> agrees sys s st -> Forall (sound sys) tr -> steps sys st tr = Some st2 -> exists pairs s2, together sys s st pairs s2 st2 /\ values_side pairs = tr.
Proof.
  induction tr as [|l tr IH]; intros s st st2 Gs Ag Sd E; cbn in E; [injection E as <-; exists [], s; split; [constructor|reflexivity]|].
  destruct (step sys st l) as [st1|] eqn:E1; [|discriminate]. inversion Sd as [|? ? S1 S2]; subst.
  destruct (one_value_step sys s st l st1 Ag S1 E1) as (p & s1 & T & V).
  destruct (IH s1 st1 st2) as (q & s2 & T2 & V2); [eapply together_good; eassumption|eapply together_agrees; eassumption|exact S2|exact E|].
  exists (p ++ q), s2. split; [eapply together_app; eassumption|]. rewrite values_app, V, V2. reflexivity.
Qed.
Lemma together_steps sys s st pairs s2 st2 : together sys s st pairs s2 st2 -> gsteps sys s (objects_side pairs) = Some s2 /\ steps sys st (values_side pairs) = Some st2.
Proof.
  induction 1 as [|s st g l s1 st1 r s2 st2 _ Eg Ev _ [A B]]; [auto|]. unfold objects_side, values_side in *. cbn [flat_map fst snd]. split.
  - destruct g as [g|]; cbn [app gmove] in *; [|injection Eg as ->; exact A]. cbn [gsteps]. rewrite Eg. exact A.
  - destruct l as [l|]; cbn [app vmove] in *; [|injection Ev as ->; exact B]. cbn [steps]. rewrite Ev. exact B.
Qed.

(** ** Single calls *)
Lemma call_result sys s st a va s1 : good s -> agrees sys s st -> call_value (flav sys) (hp s) a va -> gstep sys s (UCall a) = Some s1 ->
  exists ev r, h_log s1 = h_log s ++ ev ++ [GReturned r] /\ same_answer (hp s1) r (snd (do_call (flav sys) va (man st))).
Proof.
  intros Gs Ag V E. pose proof Gs as ([_ Df _ _] & _). destruct (g_call_sim (flav sys) s (man st) a va Df (agrees_mrel _ _ _ Ag) V) as (t & qg & qm & X1 & X2 & X3 & X4 & X5 & X6 & X7 & X8).
  cbn [gstep] in E. destruct (knows s _); [|discriminate]. destruct (g_call (flav sys) a s) as [s' r]. injection E as <-. cbn [fst snd] in *. cbn [h_log hp g_say learn].
  exists (put_events qg), r. split; [rewrite X5, app_assoc; reflexivity|]. destruct (snd (do_call (flav sys) va (man st))) as [[v|msg|]|e]; cbn [ans_now] in X8.
  - destruct X8 as (i & -> & N). exact N.
  - destruct X8 as (i & _ & []).
  - destruct X8 as (i & -> & ->). reflexivity.
  - subst r. reflexivity.
Qed.
Lemma made_result sys s a r s1 : good s -> made_of (hp s) a r -> gstep sys s (UCall a) = Some s1 ->
  exists r', h_log s1 = h_log s ++ [GReturned r'] /\ same_result (hp s1) r' r /\ (forall l c, nth_error (hp s) l = Some c -> nth_error (hp s1) l = Some c) /\
    h_next s1 = h_next s /\ h_out s1 = h_out s /\ h_cbs s1 = h_cbs s /\ h_stack s1 = h_stack s.
Proof.
  intros Gs V E. pose proof Gs as ([_ Df _ _] & _). set (s0 := mkH (hp s) (known s) 0 [] [] [] []).
  assert (Mr : mrel (flav sys) s0 mgr0) by (repeat split; constructor).
  destruct (g_made_sim (flav sys) s0 mgr0 a r Df Mr V) as (t & qg & qm & X1 & X2 & X3 & X4 & X5 & X6 & X7 & X8).
  cbn [gstep] in E. destruct (knows s _); [|discriminate].
  assert (On : exists x : H item, g_call (flav sys) a s0 = on_heap x s0 /\ g_call (flav sys) a s = on_heap x s) by (destruct V; cbn [g_call]; eauto).
  destruct On as (x & O0 & O1). rewrite O0 in *. rewrite O1 in E. unfold on_heap in *. cbn [s0 hp] in *. destruct (x (hp s)) as [h r']. injection E as <-. cbn [fst snd hp] in *. exists r'. cbn.
  split; [reflexivity|]. split; [destruct r as [v|e]; cbn in X8; [destruct X8 as (i & -> & N); exact N|subst r'; reflexivity]|]. split; [|auto]. intros l c N. rewrite X1. apply nth_ext. exact N.
Qed.
