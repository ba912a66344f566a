(** * C91: garbage collection.  The vocabulary is in SpecCollect, SpecAsyn and SpecRole; the model (Collect) lets the interpreter drop any manager the library does not
    refer to, and close any socket nobody refers to, at any moment - or never. *)
From Coq Require Import ZArith List Bool Lia Arith.
From Verif Require Import PyBase Role SpecRole ProofsRole.
From Verif Require Import Asyn SpecAsyn ProofsAsyn ProofsAsynPoll ProofsAsynClose ProofsAsynLog PropertiesAsyn Collect SpecCollect ProofsCollect.
Import ListNotations.
Open Scope Z_scope.

(** C91. Collecting and finalizing change nothing that anybody can see: not asyncore's map, not the running calls, no event; other managers and the sockets of all managers stay as they are, with their queues. *)
Theorem C91_invisible : forall st o st', gstep st (GCollect o) = Some st' ->
  smap st' = smap st /\ astack st' = astack st /\ alog st' = alog st /\ socks st' = socks st /\ (forall y, y <> o -> obj st' y = obj st y) /\ (forall y, registered st y -> registered st' y).
Proof.
  intros st o st' E. apply collect_inv in E as (_ & N & _ & ->). repeat split; try reflexivity.
  - intros y Y. rewrite obj_drop. destruct (Nat.eqb_spec o y); [congruence|reflexivity].
  - intros y (m & fd & s & k & H1 & H2 & H3 & H4 & H5 & H6). exists m, fd, s, k. repeat split; try assumption. rewrite obj_drop. destruct (Nat.eqb_spec o y) as [->|]; [elim (N fd H6)|exact H1].
Qed.
Print Assumptions C91_invisible.
Theorem C91_finalize : forall st s st', gstep st (GFinalize s) = Some st' ->
  smap st' = smap st /\ astack st' = astack st /\ alog st' = alog st /\ (forall y, obj st' y = obj st y) /\
  (forall t, t <> s -> nth_error (socks st') t = nth_error (socks st) t) /\ ~ is_open st' s /\ (forall y, registered st y -> registered st' y) /\ waiting st' = waiting st.
Proof.
  intros st s st' E. apply final_inv in E as (_ & N & ->). destruct (set_open_objs st s false) as (Eo & Em & Es & El).
  assert (Ob : forall y, obj (set_open st s false) y = obj st y) by (intros y; unfold obj; rewrite Eo; reflexivity).
  assert (Q : forall t, queued (set_open st s false) t = queued st t).
  { intros t. unfold queued. rewrite set_open_nth. destruct (Nat.eqb_spec s t) as [<-|]; [destruct (nth_error (socks st) s); reflexivity|reflexivity]. }
  split; [exact Em|]. split; [exact Es|]. split; [exact El|]. split; [exact Ob|]. split; [|split; [|split]].
  - intros t T. rewrite set_open_nth. destruct (Nat.eqb_spec s t); [congruence|reflexivity].
  - intros (k & K & O). rewrite set_open_nth, Nat.eqb_refl in K. destruct (nth_error (socks st) s); [|discriminate]. injection K as <-. discriminate.
  - intros y (m & fd & t & k & H1 & H2 & H3 & H4 & H5 & H6). exists m, fd, t, k. rewrite Ob, Em. repeat split; try assumption. rewrite set_open_nth. destruct (Nat.eqb_spec s t) as [->|]; [|exact H3].
    elim (proj1 (N y m H1)). exact H2.
  - unfold waiting. rewrite Em. apply flat_map_ext. intros e. rewrite Ob. destruct (obj st (snd e)) as [m|]; [|reflexivity]. destruct (a_role m) as [t|]; [rewrite Q|]; reflexivity.
Qed.
Print Assumptions C91_finalize.
(** C91. A manager that was made and not closed is never dropped and stays registered with its socket open, also if user code does not refer to it any more ... *)
Theorem C91_stays : forall tr st o, gexec tr = Some st -> never_handle_closes tr -> never_closes o tr -> made (alog st) o -> registered st o.
Proof.
  intros tr st o E NH NC M. destruct (gexec_stays tr st o E NH NC) as [A B]. destruct (gexec_sound tr st NH E) as [S En]. destruct (obj st o) as [m|] eqn:O; [|elim (B M); reflexivity].
  destruct (a_fileno m) as [fd|] eqn:F; [|elim (A m eq_refl F)]. eapply registered_in; eassumption.
Qed.
Print Assumptions C91_stays.
Theorem C91_never_dropped : forall tr st o, gexec tr = Some st -> never_handle_closes tr -> never_closes o tr -> made (alog st) o -> gstep st (GCollect o) = None.
Proof.
  intros tr st o E NH NC M. destruct (C91_stays tr st o E NH NC M) as (m & fd & s & k & _ & _ & _ & _ & _ & J). destruct (gstep st (GCollect o)) eqn:X; [|reflexivity].
  apply collect_inv in X as (_ & N & _). elim (N fd J).
Qed.
Print Assumptions C91_never_dropped.
(** ... and is still served by every poll(): each manager with data gets one datagram, whatever was collected. *)
Theorem C91_poll_serves_all : forall tr st p l, gexec tr = Some st -> never_handle_closes tr -> user_runs st -> made (alog st) p -> never_collected p tr -> waiting st = map as_waiting l ->
  exists st', gsteps st (map GDo (APoll p :: repeat AReturn (length l))) = Some st' /\ astack st' = astack st /\
    logged st st' (EPoll p :: flat_map served l ++ [EPollEnd p (Ok tt)]).
Proof.
  intros tr st p l E NH U M N W. destruct (gexec_sound tr st NH E) as [S _]. apply gpoll_serves; [exact S|apply user_ok; exact U| |exact W]. apply (gexec_made tr st E); assumption.
Qed.
Print Assumptions C91_poll_serves_all.
(** C91. What C69 and C70 say of delivery and sending holds for all executions with collection: nothing is lost, invented, repeated or reordered, datagrams go to the manager that
    made the socket, and are sent from there. *)
Theorem C91_lossless : forall tr st s, gexec tr = Some st -> arrivals (alog st) s = received (alog st) s ++ queued st s.
Proof. intros tr st s E. apply (i_queue st (proj1 (gexec_inv tr st E))). Qed.
Print Assumptions C91_lossless.
Theorem C91_handed : forall tr st pre s d a post, gexec tr = Some st -> alog st = pre ++ ERecv s (Ok (d, a)) :: post ->
  exists o post', post = ECb o (Data d a) :: post' /\ opened_by pre s o /\ forall o', opened_by (alog st) s o' -> o' = o.
Proof.
  intros tr st pre s d a post E L. pose proof (proj1 (gexec_inv tr st E)) as I. destruct (ok_log_recv _ (i_log st I) pre s d a post L) as (o & p' & -> & Ow).
  exists o, p'. split; [reflexivity|]. split; [exact Ow|]. intros o' H. eapply (i_owner st I s); [exact H|]. rewrite L. apply opened_more. exact Ow.
Qed.
Print Assumptions C91_handed.
Theorem C91_only_read : forall tr st pre o d a post, gexec tr = Some st -> alog st = pre ++ ECb o (Data d a) :: post ->
  exists s pre', pre = pre' ++ [ERecv s (Ok (d, a))] /\ opened_by pre' s o.
Proof. intros tr st pre o d a post E L. pose proof (proj1 (gexec_inv tr st E)) as I. eapply ok_log_cb; [exact (i_log st I)|exact L]. Qed.
Print Assumptions C91_only_read.
Theorem C91_own_socket : forall tr st pre s q dst post, gexec tr = Some st -> alog st = pre ++ ESentto s q dst :: post ->
  exists o post', post = ESend o (Ok tt) :: post' /\ opened_by pre s o /\ forall o', opened_by (alog st) s o' -> o' = o.
Proof.
  intros tr st pre s q dst post E L. destruct (gexec_made tr st E) as [H _]. destruct (H pre s q dst post L) as (o & p' & -> & Ow). exists o, p'. split; [reflexivity|]. split; [exact Ow|].
  intros o' H'. eapply (i_owner st (proj1 (gexec_inv tr st E)) s); [exact H'|]. rewrite L. apply opened_more. exact Ow.
Qed.
Print Assumptions C91_own_socket.
(** C91. No descriptor is lost for good: an open socket belongs to a registered manager, or the interpreter may close it. *)
Theorem C91_no_leak : forall tr st s, gexec tr = Some st -> never_handle_closes tr -> is_open st s ->
  in_use st s \/ exists st', gstep st (GFinalize s) = Some st' /\ ~ is_open st' s.
Proof. exact no_leak. Qed.
Print Assumptions C91_no_leak.
(** C91. ... and what the finalizer has to close is just the sockets whose constructor failed after making them. *)
Theorem C91_only_leftovers : forall tr st s st', gexec tr = Some st -> never_handle_closes tr -> gstep st (GFinalize s) = Some st' -> is_open st s -> constructor_failed (alog st) s.
Proof. exact only_leftovers. Qed.
Print Assumptions C91_only_leftovers.

(** ** role.manager alone *)
(** C91. __del__ closes the current socket, if any, and nothing else, whatever that close() answers; ... *)
Theorem C91_role_del : forall st r, sock (mgr_of (role_del st r)) = None /\
  calls (role_del st r) = calls st ++ match sock (mgr_of st) with Some s => [SClose s r] | None => [] end.
Proof.
  intros st r. unfold role_del, role_close. destruct (sock (mgr_of st)) as [s|]; [destruct r|]; cbn; split; try reflexivity. rewrite app_nil_r. reflexivity.
Qed.
Print Assumptions C91_role_del.
(** ... after it, once the finalizers of the sockets it left open have run, every socket the manager ever made is closed, each once: the leak of C48 ends with the manager. *)
Theorem C91_role_all_closed : forall i z ops r, let st := role_del (role_run i z ops) r in let st' := fold_left role_final (left_open (calls st)) st in
  SpecRole.made (calls st') = SpecRole.made (calls (role_run i z ops)) /\ incl (SpecRole.made (calls st')) (closed (calls st')) /\ NoDup (closed (calls st')) /\ left_open (calls st') = [].
Proof.
  intros i z ops r. cbv zeta. pose proof (rinv_run i z ops) as [_ M C N _]. pose proof (C91_role_del (role_run i z ops) r) as [_ Ca]. set (st := role_del (role_run i z ops) r) in *.
  assert (Fin : forall l s0, calls (fold_left role_final l s0) = calls s0 ++ map (fun s => SClose s (Ok tt)) l).
  { induction l as [|x l IH]; intros s0; cbn [fold_left map]; [rewrite app_nil_r; reflexivity|]. rewrite IH. cbn [role_final calls]. rewrite <- app_assoc. reflexivity. }
  assert (Cl : forall l, closed (map (fun s => SClose s (Ok tt)) l) = l) by (induction l as [|x l IH]; [reflexivity|cbn; f_equal; exact IH]).
  assert (Ml : forall l, SpecRole.made (map (fun s => SClose s (Ok tt)) l) = []) by (induction l as [|x l IH]; [reflexivity|exact IH]).
  assert (Ms : SpecRole.made (calls st) = SpecRole.made (calls (role_run i z ops))). { rewrite Ca, ProofsRole.made_app. destruct (sock (mgr_of (role_run i z ops))); cbn; apply app_nil_r. }
  assert (Nm : NoDup (SpecRole.made (calls st))) by (rewrite Ms, M; apply seq_NoDup).
  assert (Nc : NoDup (closed (calls st)) /\ True).
  { split; [|exact Logic.I]. rewrite Ca, ProofsRole.closed_app. destruct (sock (mgr_of (role_run i z ops))) as [s|] eqn:Sk; [|rewrite app_nil_r; exact N]. destruct r; [|cbn; rewrite app_nil_r; exact N]. cbn.
    assert (Fs : ~ In s (closed (calls (role_run i z ops)))).
    { pose proof (rinv_run i z (ops ++ [RClose (Ok tt)])) as [_ _ _ N' _]. unfold role_run in N' at 1. rewrite fold_left_app in N'. cbn [fold_left role_do] in N'. fold (role_run i z ops) in N'. unfold role_close in N'. rewrite Sk in N'. cbn in N'.
      rewrite ProofsRole.closed_app in N'. cbn in N'. apply NoDup_remove_2 in N'. rewrite app_nil_r in N'. exact N'. }
    apply (NoDup_Add (l := closed (calls (role_run i z ops))) (a := s)); [|split; assumption]. rewrite <- (app_nil_r (closed (calls (role_run i z ops)))) at 1. apply Add_app. }
  destruct Nc as [Nc _]. set (lo := left_open (calls st)). assert (In' : forall s, In s lo <-> In s (SpecRole.made (calls st)) /\ ~ In s (closed (calls st))).
  { intros s. unfold lo, left_open. rewrite filter_In. split; intros [A B]; (split; [exact A|]).
    - intros J. apply negb_true_iff in B. assert (X : existsb (Nat.eqb s) (closed (calls st)) = true) by (apply existsb_exists; exists s; split; [exact J|apply Nat.eqb_refl]). congruence.
    - apply negb_true_iff. apply not_true_iff_false. intros X. apply existsb_exists in X as (t & J & Q). apply Nat.eqb_eq in Q. subst t. contradiction. }
  assert (All : incl (SpecRole.made (calls st)) (closed (calls st) ++ lo)).
  { intros s J. apply in_or_app. destruct (in_dec Nat.eq_dec s (closed (calls st))) as [K|K]; [left; exact K|right; apply In'; split; assumption]. }
  rewrite Fin, ProofsRole.made_app, ProofsRole.closed_app, Cl, Ml, app_nil_r. split; [exact Ms|]. split; [exact All|]. split.
  - assert (Nl : NoDup lo) by (apply NoDup_filter; exact Nm). assert (D : forall s, In s lo -> ~ In s (closed (calls st))) by (intros s J; apply In'; exact J). clear -Nc Nl D.
    induction (closed (calls st)) as [|x l IH]; [exact Nl|]. inversion Nc as [|? ? X Y]; subst. cbn [app]. constructor.
    + intros J. apply in_app_or in J as [J|J]; [contradiction|]. apply (D x J). left. reflexivity.
    + apply IH; [exact Y|]. intros s J K. apply (D s J). right. exact K.
  - unfold left_open at 1. rewrite ProofsRole.made_app, Ml, app_nil_r, ProofsRole.closed_app, Cl.
    assert (F : forall l, incl l (closed (calls st) ++ lo) -> filter (fun s => negb (existsb (Nat.eqb s) (closed (calls st) ++ lo))) l = []).
    { induction l as [|x l IH]; intros I; [reflexivity|]. cbn [filter]. assert (X : existsb (Nat.eqb x) (closed (calls st) ++ lo) = true) by (apply existsb_exists; exists x; split; [apply I; left; reflexivity|apply Nat.eqb_refl]).
      rewrite X. apply IH. intros y J. apply I. right. exact J. }
    apply F. exact All.
Qed.
Print Assumptions C91_role_all_closed.

(** ** Examples *)
(** Three managers; the second is closed and dropped; the constructor of the fourth fails in bind and its socket is finalized; the descriptor is used again; the others are served. *)
Definition collected : list glabel :=
  [GDo (ANew (CbPair true) ([48], 0) opens 5); GDo (ANew (CbPair true) ([48], 0) opens 6); GDo (ANew (CbPair true) ([48], 0) opens 7);
   GDo (AArrive 2 (Ok ([1; 2], ([97], 161)))); GDo (AClose 1 (Ok tt)); GCollect 1;
   GDo (ANew (CbPair true) ([48], 0) (mkOpening (Ok tt) (Err OSError) (Ok tt)) 8); GFinalize 3; GFinalize 1; GDo (ANew (CbPair true) ([48], 0) opens 8)].
Definition collected_st : astate := Eval vm_compute in match gexec collected with Some st => st | None => ainit end.
Example collected_meets : gexec collected = Some collected_st /\ never_handle_closes collected /\ user_runs collected_st /\ made (alog collected_st) 0 /\ never_collected 0 collected /\ never_closes 2 collected /\ made (alog collected_st) 2 /\
  waiting collected_st = map as_waiting [mkDelivery 2 2 [1; 2] ([97], 161)] /\ obj collected_st 1 = None /\ registered collected_st 4.
Proof.
  split; [vm_compute; reflexivity|]. split; [intros o r H; repeat (destruct H as [H|H]; [discriminate|]); destruct H|]. split; [left; reflexivity|]. split; [cbn; tauto|].
  split; [intros H; repeat (destruct H as [H|H]; [discriminate|]); destruct H|]. split; [intros r H; repeat (destruct H as [H|H]; [discriminate|]); destruct H|]. split; [cbn; tauto|].
  split; [reflexivity|]. split; [reflexivity|]. do 4 eexists. split; [reflexivity|]. split; [reflexivity|]. split; [reflexivity|]. split; [reflexivity|]. split; [reflexivity|]. cbn. tauto.
Qed.
(** Before it is finalized, the failed constructor's socket is such a leftover; managers in the map cannot be dropped. *)
Definition before_st : astate := Eval vm_compute in match gexec (firstn 7 collected) with Some st => st | None => ainit end.
Example before_meets : gexec (firstn 7 collected) = Some before_st /\ is_open before_st 3 /\ constructor_failed (alog before_st) 3 /\ (exists st', gstep before_st (GFinalize 3) = Some st') /\ gstep before_st (GCollect 0) = None /\ gstep before_st (GFinalize 0) = None.
Proof.
  split; [vm_compute; reflexivity|]. split; [eexists; split; reflexivity|]. split; [exists 3%nat, OSError; split; [exists 8; cbn; tauto|cbn; tauto]|]. split; [eexists; vm_compute; reflexivity|]. split; vm_compute; reflexivity.
Qed.
Example role_all_closed_example : let ops := [ROpen opens; ROpen opens; RClose (Ok tt); ROpen opens] in let st := role_del (role_run ([], 0) 65536 ops) (Err OSError) in
  left_open (calls (role_run ([], 0) 65536 ops)) = [0%nat; 2%nat] /\ left_open (calls st) = [0%nat; 2%nat] /\ closed (calls (fold_left role_final (left_open (calls st)) st)) = [1%nat; 0%nat; 2%nat].
Proof. vm_compute. repeat split. Qed.
