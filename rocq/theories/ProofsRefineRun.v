(** A run on objects that changes none of them, and the run on values: in step all the way. *)
From Coq Require Import ZArith List Bool Lia.
From Verif Require Import PyBase Classes Values Codec Manager Heap SpecHeap SpecRefine.
From Verif Require Import ProofsHeap ProofsHeapKeep ProofsHeapMake ProofsHeapValue ProofsHeapRun ProofsHeapCall ProofsHeapBack ProofsRefine ProofsRefineCall.
Import ListNotations.
Open Scope Z_scope.

(** ** The dict *)
Lemma same_matches f h e p n : same_entry f h e p -> matches f h n e = (fst p =? n).
Proof. intros (A & _ & B). unfold matches. rewrite A, B. destruct (fst p =? n); reflexivity. Qed.
Lemma same_abs f h d d' : Forall2 (same_entry f h) d d' -> e_abs f h d = d'.
Proof.
  induction 1 as [|e p d d' X Y IH]; [reflexivity|]. unfold e_abs in *. cbn [filter]. rewrite (same_matches _ _ _ _ _ X). pose proof X as (A & B & _). rewrite A, Z.eqb_refl. cbn [map]. rewrite IH, A, B. destruct p. reflexivity.
Qed.
Lemma same_get f h d d' n : Forall2 (same_entry f h) d d' -> e_get f h d n = dict_get d' n.
Proof.
  induction 1 as [|e [x w] d d' X Y IH]; [reflexivity|]. cbn [e_get dict_get]. rewrite (same_matches _ _ _ _ _ X). cbn [fst]. destruct (x =? n); [|exact IH]. destruct X as (_ & -> & _). reflexivity.
Qed.
Lemma same_set f h d d' n k cb : key_num f h k = Ok n -> Forall2 (same_entry f h) d d' -> Forall2 (same_entry f h) (e_set f h d n (match f with FSM => k | _ => IInt n end) cb) (dict_set d' n cb).
Proof.
  intros K. induction 1 as [|e [x w] d d' X Y IH]; cbn [e_set dict_set].
  - constructor; [|constructor]. repeat split. cbn. destruct f; [reflexivity|reflexivity|exact K].
  - rewrite (same_matches _ _ _ _ _ X). cbn [fst]. destruct (x =? n); constructor; auto. destruct X as (A & B & C). repeat split; assumption.
Qed.
Lemma same_del f h d d' n : Forall2 (same_entry f h) d d' -> Forall2 (same_entry f h) (e_del f h d n) (dict_del d' n).
Proof.
  induction 1 as [|e [x w] d d' X Y IH]; cbn [e_del dict_del]; [constructor|]. rewrite (same_matches _ _ _ _ _ X). cbn [fst]. destruct (x =? n); [exact Y|constructor; assumption].
Qed.
Lemma key_num_now f h r k z : now h r (VInt k z) -> key_num f h r = Ok z.
Proof.
  intros X. inversion X; subst; [contradiction|]. unfold key_num, is_a, class_at. match goal with N : nth_error h _ = Some _ |- _ => rewrite N end. replace (issubclass k CInteger) with true by (destruct k; try discriminate; reflexivity).
  erewrite attr_at by eassumption. cbn. destruct f; reflexivity.
Qed.

(** ** Calls *)
Lemma g_put_sim f s m i om dst : mrel f s m -> same_message (hp s) i om -> gsim f (fun _ _ _ => True) s m (g_put i dst s) (put om dst m).
Proof.
  intros (A & B & C) X. exists [], [(i, dst)], [(om, dst)]. cbn. rewrite app_nil_r. split; [reflexivity|]. split.
  - split; [exact A|]. split; [exact B|]. cbn. apply Forall2_app; [exact C|]. constructor; [|constructor]. split; [exact X|reflexivity].
  - repeat (split; [reflexivity|]). exists tt. auto.
Qed.
Lemma g_queue_sim f s m i msg dst cb : mrel f s m -> msg_now pdu_now (hp s) i msg -> gsim f now s m (g_queue f i dst cb s) (queue_request msg dst cb m).
Proof.
  intros I (Sm & d & Ad & Pd). unfold g_queue, queue_request. destruct Pd as (_ & _ & c & r & k & z & rest & Ed & Ar & Nr).
  eapply gsim_bind; [apply g_put_sim; [exact I|exact Sm]|]. intros s1 m1 _ _ I1 (t & Et) _.
  assert (E1 : on_heap (rd (fun h => d <- attr_of h i Adata ;; attr_of h d ArequestID)) s1 = (s1, Ok r)).
  { unfold on_heap, rd. rewrite Et. rewrite (attr_ext _ t _ _ _ Ad). cbn [bind]. rewrite (attr_ext _ t _ _ _ Ar). rewrite <- Et. destruct s1; reflexivity. }
  unfold gbind at 1. rewrite E1. rewrite Ed. cbn [requestID_of]. unfold mbind at 1, lift at 1. unfold mbind at 1, lift at 1. cbn [py_int].
  assert (K : key_num f (hp s1) r = Ok z) by (rewrite Et; eapply key_num_now; apply now_ext; exact Nr).
  unfold gbind, g_register, mbind, register. rewrite K. destruct I1 as (A1 & B1 & C1). exists [], [], []. cbn. rewrite !app_nil_r. split; [reflexivity|]. split.
  - split; [exact A1|]. split; [cbn; apply same_set; assumption|exact C1].
  - repeat (split; [reflexivity|]). exists r. split; [reflexivity|]. rewrite Et. apply now_ext. exact Nr.
Qed.
Definition ans_now (h : heap) (i : item) (a : answer) : Prop := match a with RVal v => now h i v | RNone => i = INone | RMsg _ => False end.
Lemma gsim_mmap {A B C} f (R : heap -> A -> B -> Prop) (Q : heap -> A -> C -> Prop) (g : B -> C) s m x (y : M B) : gsim f R s m x (y m) -> (forall h a b, R h a b -> Q h a (g b)) -> gsim f Q s m x (mmap g y m).
Proof.
  intros (t & qg & qm & E1 & E2 & E3 & E4 & E5 & E6 & E7 & X) I. unfold mmap. destruct (y m) as [m1 [b|e]]; cbn [fst snd] in *; exists t, qg, qm; repeat (split; [assumption|]); [|exact X].
  destruct X as (a & Ea & Ra). exists a. auto.
Qed.
Lemma msg_now_same P h i msg : msg_now P h i msg -> same_message h i (Some msg). Proof. intros [A _]. exact A. Qed.
Lemma g_call_sim f s m a va : defaults_ok (hp s) -> mrel f s m -> call_value f (hp s) a va -> gsim f ans_now s m (g_call f a s) (do_call f va m).
Proof.
  intros D I V. destruct V as [oid ov dst cb com cv ver A O C|vbl v dst cb com cv ver A C|vbl v dst cb com cv A C|oid ov ty i v dst cb com cv ver A O B L C|dst pdu p com cv ver A C]; cbn [g_call do_call].
  - eapply gsim_mmap with (R := now); [|auto]. unfold snmpGet. eapply gsim_bind; [apply g_get_sim; try eassumption; apply C|]. intros s1 m1 x y I1 _ R. apply g_queue_sim; assumption.
  - eapply gsim_mmap with (R := now); [|auto]. unfold snmpGetNext. eapply gsim_bind; [apply g_getnext_sim; try eassumption; apply C|]. intros s1 m1 x y I1 _ R. apply g_queue_sim; assumption.
  - eapply gsim_mmap with (R := now); [|auto]. unfold snmpSet_bindings. destruct f.
    + eapply gsim_bind; [apply g_pdu_sim; [exact D|reflexivity|exact I|exact A]|]. intros s1 m1 d dv I1 (t & Et) P1.
      eapply gsim_bind; [apply g_msg1 with (P := pdu_now); auto using pdu_mono, pn_now; rewrite Et; apply now_ext; apply C|]. intros s2 m2 x y I2 _ R. apply g_queue_sim; assumption.
    + eapply gsim_bind; [apply g_assign_sim; exact I|]. intros s1 m1 x y I1 _ _. apply gsim_err. exact I1.
    + apply gsim_err. exact I.
  - eapply gsim_mmap with (R := now); [|auto]. unfold snmpSet_typed. destruct f; try (apply gsim_err; exact I).
    eapply gsim_bind; [apply g_set_sim; try eassumption; apply C|]. intros s1 m1 x y I1 _ R. apply g_queue_sim; assumption.
  - eapply gsim_mmap with (R := fun _ i _ => i = INone); [|auto]. unfold snmpTrap. destruct f; cbn [createTrapMessage].
    + apply gsim_bind with (R := fun h i om => same_message h i om).
      * unfold g_message1. destruct (gsim_heap FV1 (msg_now now) s m (h_message CMessage 0 com pdu) (message_init CMessage (VPyInt 0) cv p) I) as (t & qg & qm & X); [apply s_message; auto using now_mono; [apply C|apply A]|].
        exists t, qg, qm. revert X. unfold mbind, message_v1, lift, ret. destruct (message_init CMessage (VPyInt 0) cv p) as [msg|e]; cbn [fst snd]; [|auto].
        intros (X1 & X2 & X3 & X4 & X5 & X6 & X7 & a & Ea & Ra). repeat (split; [assumption|]). exists a. split; [exact Ea|]. eapply msg_now_same. exact Ra.
      * intros s1 m1 i om I1 _ Sm. destruct (g_put_sim FV1 s1 m1 i om dst I1 Sm) as (t & qg & qm & X1 & X2 & X3 & X4 & X5 & X6 & X7 & X8).
        exists t, qg, qm. revert X1 X2 X3 X4 X5 X6 X7 X8. unfold gbind, g_put, put, gret. cbn [fst snd]. intros. repeat (split; [assumption|]). exists INone. auto.
    + apply gsim_bind with (R := fun h i om => same_message h i om).
      * unfold g_message2. destruct (gsim_heap FV2 (msg_now now) s m (h_message CMessage_v2 1 com pdu) (message_init CMessage_v2 (VPyInt 1) cv p) I) as (t & qg & qm & X); [apply s_message; auto using now_mono; [apply C|apply A]|].
        exists t, qg, qm. revert X. unfold mbind, message_v2, lift, ret. destruct (message_init CMessage_v2 (VPyInt 1) cv p) as [msg|e]; cbn [fst snd]; [|auto].
        intros (X1 & X2 & X3 & X4 & X5 & X6 & X7 & a & Ea & Ra). repeat (split; [assumption|]). exists a. split; [exact Ea|]. eapply msg_now_same. exact Ra.
      * intros s1 m1 i om I1 _ Sm. destruct (g_put_sim FV2 s1 m1 i om dst I1 Sm) as (t & qg & qm & X1 & X2 & X3 & X4 & X5 & X6 & X7 & X8).
        exists t, qg, qm. revert X1 X2 X3 X4 X5 X6 X7 X8. unfold gbind, g_put, put, gret. cbn [fst snd]. intros. repeat (split; [assumption|]). exists INone. auto.
    + destruct ((ver =? 1) || (ver =? 2)).
      * destruct (@gsim_err item (option message) FSM (fun _ _ _ => True) s m AttributeError I) as (t & qg & qm & X). exists t, qg, qm. exact X.
      * destruct (g_put_sim FSM s m INone None dst I eq_refl) as (t & qg & qm & X1 & X2 & X3 & X4 & X5 & X6 & X7 & X8).
        exists t, qg, qm. revert X1 X2 X3 X4 X5 X6 X7 X8. unfold gbind, g_put, mbind, ret, put, gret. cbn [fst snd]. intros. repeat (split; [assumption|]). exists INone. auto.
Qed.
(** Constructors *)
Lemma g_made_sim f s m a r : defaults_ok (hp s) -> mrel f s m -> made_of (hp s) a r -> gsim f now s m (g_call f a s) (lift r m).
Proof.
  intros D I V. assert (Opt : forall k vbl v, (k < 5)%nat -> match vbl with Some l => arg (hp s) l v | None => v = VPyList [] end -> arg (hp s) (opt_item (IRef k) vbl) v).
  { intros k [l|] v Lk X; [exact X|]. cbn. rewrite X. apply now_default; assumption. }
  destruct V as [c id z vbl v A B Hc|id z vbl v A B|two vbl v B|c n nv i v Hc A B|i v A L|e a g sp t v e' a' g' s' t' v' A1 A2 A3 A4 A5 A6]; cbn [g_call]; (apply gsim_heap; [exact I|]).
  - apply hsim_weaken with (R := pdu_now); [|intros ? ? ? X; apply X]. destruct A as [A _]. cbn in Hc.
    repeat destruct Hc as [<-|Hc]; try contradiction; (apply s_pdu; [exact D|reflexivity|exact A|apply Opt; [cbn; lia|exact B]]).
  - apply hsim_weaken with (R := pdu_now); [|intros ? ? ? X; apply X]. destruct A as [A _]. cbn [issubclass]. change (issubclass CGetBulk CBulkPDU) with true. cbn iota. apply s_bulk; [reflexivity|exact A|apply Opt; [lia|exact B]].
  - destruct two; [apply s_varbindlist2|apply s_varbindlist]; (apply Opt; [lia|exact B]).
  - destruct Hc as [-> | ->]; (apply s_varbind; [reflexivity|exact A|exact B]).
  - apply s_objectid; [apply A|exact L].
  - apply s_trappdu; [apply A1|apply A2|apply A3|apply A4|apply A5|apply A6].
Qed.
