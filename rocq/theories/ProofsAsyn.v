(** * Proofs about several managers in one process. *)
From Coq Require Import ZArith List Bool Lia Arith.
From Verif Require Import PyBase Role Asyn SpecAsyn.
Import ListNotations.
Open Scope Z_scope.

(** ** Lists *)
Lemma nth_upd {A} (l : list A) n x k : nth_error (upd l n x) k = if Nat.eqb n k then match nth_error l n with Some _ => Some x | None => None end else nth_error l k.
Proof.
  revert n k. induction l as [|y l IH]; intros [|n] [|k]; cbn; try reflexivity; try (destruct (Nat.eqb n k); reflexivity).
  apply IH.
Qed.
Lemma upd_length {A} (l : list A) n x : length (upd l n x) = length l.
Proof. revert n. induction l as [|y l IH]; intros [|n]; cbn; auto. Qed.
Lemma asteps_app st a b : asteps st (a ++ b) = match asteps st a with Some st' => asteps st' b | None => None end.
Proof. revert st. induction a as [|l a IH]; intros st; [reflexivity|]. cbn. destruct (astep st l); [apply IH|reflexivity]. Qed.
Lemma map_get_in m fd o : map_get m fd = Some o -> In (fd, o) m.
Proof. induction m as [|[k x] m IH]; [discriminate|]. cbn. destruct (Z.eqb_spec k fd) as [->|]; [intros H; injection H as <-; left; reflexivity|auto]. Qed.
Lemma map_set_in m fd o k x : In (k, x) (map_set m fd o) -> (k = fd /\ x = o) \/ In (k, x) m.
Proof.
  induction m as [|[a b] m IH]; cbn; [intros [H|[]]; injection H as <- <-; auto|].
  destruct (Z.eqb_spec a fd) as [->|]; cbn; intros [H|H]; [injection H as <- <-; auto|auto|injection H as <- <-; auto|destruct (IH H); auto].
Qed.
Lemma map_del_in m fd k x : In (k, x) (map_del m fd) -> In (k, x) m.
Proof. induction m as [|[a b] m IH]; cbn; [auto|]. destruct (a =? fd); cbn; [auto|intros [H|H]; auto]. Qed.

(** ** The invariant of all executions *)
(** Data are handed to the maker of the socket they came from, at once. *)
Inductive ok_log : list aevent -> Prop :=
| ok_nil : ok_log []
| ok_other lg e : ok_log lg -> (forall s x, e <> ERecv s (Ok x)) -> (forall o d a, e <> ECb o (Data d a)) -> ok_log (lg ++ [e])
| ok_pair lg s o d a : ok_log lg -> opened_by lg s o -> ok_log ((lg ++ [ERecv s (Ok (d, a))]) ++ [ECb o (Data d a)]).
Record inv (st : astate) : Prop := {
  i_role : forall o m s, obj st o = Some m -> a_role m = Some s -> opened_by (alog st) s o;
  i_opened : forall s o, opened_by (alog st) s o -> (s < length (socks st))%nat;
  i_owner : forall s o o', opened_by (alog st) s o -> opened_by (alog st) s o' -> o = o';
  i_map : forall fd o, In (fd, o) (smap st) -> exists m, obj st o = Some m;
  i_log : ok_log (alog st);
  i_queue : forall s, arrivals (alog st) s = received (alog st) s ++ queued st s }.
Definition plain_event (e : aevent) : Prop :=
  match e with EOpened _ _ _ | ERecv _ _ | EArrive _ _ | ECb _ (Data _ _) => False | _ => True end.
Lemma opened_say lg e s o : plain_event e -> (opened_by (lg ++ [e]) s o <-> opened_by lg s o).
Proof.
  intros P. split; intros [fd H]; exists fd; [|apply in_or_app; auto].
  apply in_app_or in H as [H|[H|[]]]; [exact H|]. subst e. destruct P.
Qed.
Lemma opened_more lg e s o : opened_by lg s o -> opened_by (lg ++ e) s o.
Proof. intros [fd H]. exists fd. apply in_or_app. auto. Qed.
Lemma inv_say st e : inv st -> plain_event e -> inv (say st e).
Proof.
  intros [A B C D E F] P. constructor; cbn [say socks objs smap alog]; try (unfold obj in *; cbn [objs] in *).
  - intros o m s H R. apply opened_more. eapply A; eassumption.
  - intros s o H. apply opened_say in H; [|exact P]. eauto.
  - intros s o o' H H'. apply opened_say in H; [|exact P]. apply opened_say in H'; [|exact P]. eauto.
  - exact D.
  - apply ok_other; [exact E|intros; intros ->; destruct P|intros; intros ->; destruct P].
  - intros s. unfold arrivals, received, queued in *. cbn [socks]. rewrite !flat_map_app. cbn [flat_map]. rewrite F. destruct e; try destruct P; cbn; rewrite ?app_nil_r; reflexivity.
Qed.
Lemma inv_stack st k : inv st -> inv (set_stack st k).
Proof. intros [A B C D E F]. constructor; assumption. Qed.
Lemma inv_same st st' : inv st -> objs st' = objs st -> smap st' = smap st -> alog st' = alog st -> length (socks st') = length (socks st) ->
  (forall s, queued st' s = queued st s) -> inv st'.
Proof.
  intros [A B C D E F] O M L S Q. constructor; unfold obj in *; rewrite ?O, ?M, ?L; try assumption.
  - rewrite S. assumption.
  - intros s. rewrite Q. apply F.
Qed.
Lemma inv_open st s b : inv st -> inv (set_open st s b).
Proof.
  intros I. unfold set_open. destruct (nth_error (socks st) s) as [k|] eqn:E; [|exact I]. apply (inv_same st); try reflexivity; [exact I|cbn; apply upd_length|].
  intros t. unfold queued. cbn [socks]. rewrite nth_upd. destruct (Nat.eqb_spec s t) as [<-|]; [rewrite E; reflexivity|reflexivity].
Qed.
Lemma inv_map st m : inv st -> (forall fd o, In (fd, o) m -> exists x, obj st o = Some x) -> inv (set_map st m).
Proof. intros [A B C D E F] H. constructor; try assumption. Qed.
Lemma inv_obj st o m m' : inv st -> obj st o = Some m -> (forall s, a_role m' = Some s -> a_role m = Some s \/ opened_by (alog st) s o) -> inv (set_obj st o m').
Proof.
  intros [A B C D E F] O R. assert (N : forall x, obj (set_obj st o m') x = if Nat.eqb o x then Some m' else obj st x).
  { intros x. unfold obj, set_obj in *. cbn [objs]. rewrite nth_upd. destruct (Nat.eqb_spec o x) as [<-|]; [|reflexivity].
    destruct (nth_error (objs st) o); [reflexivity|discriminate]. }
  constructor; try assumption.
  - intros x y s H Hr. rewrite N in H. cbn [set_obj alog]. destruct (Nat.eqb_spec o x) as [<-|]; [|eapply A; eassumption].
    injection H as <-. destruct (R s Hr) as [Q|Q]; [eapply A; eassumption|exact Q].
  - intros fd x H. rewrite N. destruct (Nat.eqb o x); [eauto|eapply D; exact H].
Qed.
Lemma inv_kopen st o op fd st' s r : inv st -> kopen st o op fd = (st', s, r) ->
  inv st' /\ objs st' = objs st /\ smap st' = smap st /\ astack st' = astack st /\ (forall t, s = Some t -> opened_by (alog st') t o).
Proof.
  intros [A B C D E F] H. unfold kopen in H. destruct (o_socket op) as [u|e].
  2:{ injection H as <- <- <-. split; [constructor; assumption|]. repeat split. discriminate. }
  injection H as <- <- <-. cbn [say objs smap astack alog].
  assert (X : forall t x, opened_by (alog st ++ [EOpened (length (socks st)) o fd]) t x <-> opened_by (alog st) t x \/ (t = length (socks st) /\ x = o)).
  { intros t x. split.
    - intros [g H]. apply in_app_or in H as [H|[H|[]]]; [left; exists g; exact H|injection H as <- <- <-; auto].
    - intros [[g H]|[-> ->]]; [exists g; apply in_or_app; auto|exists fd; apply in_or_app; right; left; reflexivity]. }
  split; [|split; [reflexivity|split; [reflexivity|split; [reflexivity|]]]].
  - constructor; cbn [say socks objs smap alog]; try (unfold obj in *; cbn [say objs]).
    + intros x m t O R. apply X. left. eapply A; eassumption.
    + intros t x Q. rewrite app_length. cbn. apply X in Q as [Q|[-> _]]; [apply B in Q|]; lia.
    + intros t x x' Q Q'. apply X in Q as [Q|[-> ->]]; apply X in Q' as [Q'|[Y ->]]; [eauto|subst t; apply B in Q; lia|apply B in Q'; lia|reflexivity].
    + exact D.
    + apply ok_other; [exact E|discriminate|discriminate].
    + intros t. unfold arrivals, received, queued in *. cbn [socks]. rewrite !flat_map_app, F. cbn. rewrite !app_nil_r. f_equal.
      destruct (Nat.lt_trichotomy t (length (socks st))) as [L|[->|L]].
      * rewrite nth_error_app1 by exact L. reflexivity.
      * rewrite nth_error_app2, Nat.sub_diag by lia. cbn. rewrite (proj2 (nth_error_None (socks st) _)) by lia. reflexivity.
      * rewrite (proj2 (nth_error_None (socks st) t)) by lia. rewrite (proj2 (nth_error_None (socks st ++ _) t)); [reflexivity|rewrite app_length; cbn; lia].
  - intros t T. injection T as <-. apply X. auto.
Qed.
Lemma inv_new_obj st x : inv st -> (forall m s, x = Some m -> a_role m = Some s -> opened_by (alog st) s (length (objs st))) ->
  inv (mkAS (socks st) (objs st ++ [x]) (smap st) (astack st) (alog st)).
Proof.
  intros [A B C D E F] R.
  assert (N : forall y m, obj (mkAS (socks st) (objs st ++ [x]) (smap st) (astack st) (alog st)) y = Some m -> obj st y = Some m \/ (y = length (objs st) /\ x = Some m)).
  { intros y m. unfold obj. cbn [objs]. destruct (Nat.lt_trichotomy y (length (objs st))) as [L|[->|L]].
    - rewrite nth_error_app1 by exact L. auto.
    - rewrite nth_error_app2, Nat.sub_diag by lia. cbn. auto.
    - rewrite (proj2 (nth_error_None _ _)); [discriminate|rewrite app_length; cbn; lia]. }
  assert (N' : forall y m, obj st y = Some m -> obj (mkAS (socks st) (objs st ++ [x]) (smap st) (astack st) (alog st)) y = Some m).
  { intros y m H. unfold obj in *. cbn [objs]. destruct (nth_error (objs st) y) as [z|] eqn:Y; [|discriminate]. rewrite nth_error_app1, Y; [exact H|]. apply nth_error_Some. congruence. }
  constructor; try assumption.
  - intros y m s O Hr. cbn [alog]. apply N in O as [O|[-> O]]; [eapply A; eassumption|eapply R; eassumption].
  - intros fd y H. destruct (D fd y H) as [m O]. eauto.
Qed.
Lemma inv_kclose st s r st' r' : inv st -> kclose st s r = (st', r') -> inv st' /\ objs st' = objs st /\ smap st' = smap st /\ astack st' = astack st /\ alog st' = alog st.
Proof.
  intros I H. unfold kclose in H. destruct (nth_error (socks st) s) as [k|] eqn:E; [destruct (k_open k)|]; injection H as <- <-; try (split; [exact I|repeat split]).
  split; [apply inv_open; exact I|]. unfold set_open. rewrite E. repeat split.
Qed.

(** Stacks: callbacks and recvfrom run inside a poll(). *)
Fixpoint wf_stack (st : astate) (k : list aframe) : Prop :=
  match k with
  | [] => True
  | FCallback _ _ :: FPolling _ _ :: r => wf_stack st r
  | FBlocked o s :: FPolling _ _ :: r => opened_by (alog st) s o /\ queued st s = [] /\ wf_stack st r
  | _ => False
  end.
(** Only user code's stack below. *)
Fixpoint calls_only (k : list aframe) : Prop :=
  match k with [] => True | FCallback _ _ :: FPolling _ _ :: r => calls_only r | _ => False end.
Definition good_stack (st : astate) : Prop :=
  match astack st with
  | FBlocked o s :: FPolling _ _ :: r => opened_by (alog st) s o /\ queued st s = [] /\ calls_only r
  | k => calls_only k
  end.
Lemma calls_good st : calls_only (astack st) -> good_stack st.
Proof. unfold good_stack. destruct (astack st) as [|[| |] [|[| |] r]]; cbn; tauto. Qed.
Lemma user_calls st : good_stack st -> auser (astack st) = true -> calls_only (astack st).
Proof. unfold good_stack. destruct (astack st) as [|[| |] [|[| |] r]]; cbn; try tauto; discriminate. Qed.

Lemma inv_read_error st p rest k o e : inv st -> calls_only k -> inv (read_error st p rest k o e) /\ good_stack (read_error st p rest k o e).
Proof.
  intros I C. assert (X : inv (poll_end st p k (Err e)) /\ good_stack (poll_end st p k (Err e))).
  { split; [apply inv_say; [apply inv_stack; exact I|exact Logic.I]|apply calls_good; exact C]. }
  destruct e; try exact X. split; [apply inv_say; [apply inv_stack; exact I|exact Logic.I]|apply calls_good; exact C].
Qed.
(** recvfrom answers: the state [st] is the one in which the packet is no longer queued. *)
Lemma arrivals_app a b s : arrivals (a ++ b) s = arrivals a s ++ arrivals b s.
Proof. apply flat_map_app. Qed.
Lemma received_app a b s : received (a ++ b) s = received a s ++ received b s.
Proof. apply flat_map_app. Qed.
Record almost (st : astate) (s : nat) (x : packet) : Prop := {
  l_role : forall o m s, obj st o = Some m -> a_role m = Some s -> opened_by (alog st) s o;
  l_opened : forall s o, opened_by (alog st) s o -> (s < length (socks st))%nat;
  l_owner : forall s o o', opened_by (alog st) s o -> opened_by (alog st) s o' -> o = o';
  l_map : forall fd o, In (fd, o) (smap st) -> exists m, obj st o = Some m;
  l_log : ok_log (alog st);
  l_queue : forall t, arrivals (alog st) t = received (alog st) t ++ (if Nat.eqb s t then [x] else []) ++ queued st t }.
Lemma inv_got st p rest k o s x : almost st s x -> opened_by (alog st) s o -> calls_only k ->
  inv (got st p rest k o s x) /\ good_stack (got st p rest k o s x).
Proof.
  intros [A B C D E F] Ow Ca. unfold got.
  assert (O1 : forall t y, opened_by (alog st ++ [ERecv s x]) t y <-> opened_by (alog st) t y).
  { intros t y. split; [intros [fd H]; exists fd; apply in_app_or in H as [H|[H|[]]]; [exact H|discriminate]|apply opened_more]. }
  assert (Q : forall t, arrivals (alog st ++ [ERecv s x]) t = received (alog st ++ [ERecv s x]) t ++ queued st t).
  { intros t. rewrite arrivals_app, received_app, F. cbn. rewrite !app_nil_r. destruct (Nat.eqb s t); rewrite <- !app_assoc; reflexivity. }
  destruct x as [[d a]|e].
  - split; [|apply calls_good; exact Ca].
    assert (O2 : forall t y, opened_by ((alog st ++ [ERecv s (Ok (d, a))]) ++ [ECb o (Data d a)]) t y <-> opened_by (alog st) t y).
    { intros t y. rewrite <- O1. split; [intros [fd H]; exists fd; apply in_app_or in H as [H|[H|[]]]; [exact H|discriminate]|apply opened_more]. }
    constructor; cbn [say set_stack socks objs smap alog]; unfold obj in *; cbn [objs].
    + intros y m t Hy Hr. apply O2. eapply A; eassumption.
    + intros t y H. apply O2 in H. eauto.
    + intros t y y' H H'. apply O2 in H. apply O2 in H'. eauto.
    + exact D.
    + apply ok_pair; assumption.
    + intros t. rewrite arrivals_app, received_app. cbn [arrivals received flat_map]. rewrite !app_nil_r. rewrite Q. reflexivity.
  - apply inv_read_error; [|exact Ca]. constructor; cbn [say socks objs smap alog]; unfold obj in *; cbn [objs].
    + intros y m t Hy Hr. apply O1. eapply A; eassumption.
    + intros t y H. apply O1 in H. eauto.
    + intros t y y' H H'. apply O1 in H. apply O1 in H'. eauto.
    + exact D.
    + apply ok_other; [exact E|discriminate|discriminate].
    + exact Q.
Qed.
Lemma inv_handle_read st p rest k o fd : inv st -> calls_only k -> In (fd, o) (smap st) -> inv (handle_read st p rest k o) /\ good_stack (handle_read st p rest k o).
Proof.
  intros I Ca M. unfold handle_read. destruct (i_map st I fd o M) as [m O]. rewrite O. destruct (a_role m) as [s|] eqn:R; [|apply inv_read_error; assumption].
  pose proof (i_role st I o m s O R) as Ow. pose proof (i_opened st I s o Ow) as L.
  destruct (nth_error (socks st) s) as [ks|] eqn:K; [|apply nth_error_None in K; lia].
  destruct (k_open ks) eqn:Op; [|apply inv_read_error; assumption].
  destruct (k_queue ks) as [|x q] eqn:Q.
  - split; [apply inv_stack; exact I|]. unfold good_stack. cbn [set_stack astack alog]. split; [exact Ow|]. split; [|exact Ca]. unfold queued. cbn [set_stack socks]. rewrite K. exact Q.
  - unfold set_queue. rewrite K. destruct I as [A B C D E F]. apply inv_got; [|exact Ow|exact Ca]. constructor; try assumption.
    + intros t y H. cbn [socks]. rewrite upd_length. eauto.
    + intros t. cbn [alog]. rewrite F. unfold queued. cbn [socks]. rewrite nth_upd. destruct (Nat.eqb_spec s t) as [<-|]; [|reflexivity]. rewrite K. cbn [k_queue app]. rewrite Q. reflexivity.
Qed.
Lemma inv_serve ready : forall st p k, inv st -> calls_only k -> inv (serve st p ready k) /\ good_stack (serve st p ready k).
Proof.
  induction ready as [|fd rest IH]; intros st p k I C; cbn [serve].
  - split; [apply inv_say; [apply inv_stack; exact I|exact Logic.I]|apply calls_good; exact C].
  - destruct (map_get (smap st) fd) as [o|] eqn:E; [|apply IH; assumption]. apply map_get_in in E. eapply inv_handle_read; eassumption.
Qed.
Lemma calls_good' st st' : calls_only (astack st) -> astack st' = astack st -> good_stack st'.
Proof. intros C E. apply calls_good. rewrite E. exact C. Qed.
Lemma obj_length st o m : obj st o = Some m -> (o < length (objs st))%nat.
Proof. unfold obj. intros H. apply nth_error_Some. destruct (nth_error (objs st) o); congruence. Qed.
Theorem astep_inv st l st' : inv st -> good_stack st -> astep st l = Some st' -> inv st' /\ good_stack st'.
Proof.
  intros I G S. destruct l as [cb i op fd|o q dst op fd r|o|o r|o r| |e|s x]; cbn [astep] in S.
  - destruct (auser (astack st)) eqn:U; [|discriminate]. destruct (fd_free st fd); [|discriminate]. cbn in S. injection S as <-. pose proof (user_calls st G U) as Ca.
    assert (Fl : forall st1 e, inv st1 -> astack st1 = astack st -> objs st1 = objs st -> inv (say (mkAS (socks st1) (objs st1 ++ [None]) (smap st1) (astack st1) (alog st1)) (ENew (length (objs st)) (Err e))) /\ good_stack (say (mkAS (socks st1) (objs st1 ++ [None]) (smap st1) (astack st1) (alog st1)) (ENew (length (objs st)) (Err e)))).
    { intros st1 e I1 E1 E2. split; [apply inv_say; [|exact Logic.I]; apply inv_new_obj; [exact I1|discriminate]|apply (calls_good' st); [exact Ca|exact E1]]. }
    unfold anew. destruct cb as [[|]| |]; try (apply Fl; auto; fail).
    destruct (kopen st (length (objs st)) op fd) as [[st1 s1] r1] eqn:K. destruct (inv_kopen _ _ _ _ _ _ _ I K) as (I1 & O1 & M1 & A1 & W1).
    destruct s1 as [s1|], r1 as [[]|e]; try (apply Fl; assumption).
    split; [|apply (calls_good' st); [exact Ca|exact A1]].
    assert (I2 : inv (mkAS (socks st1) (objs st1 ++ [Some (mkA (Some s1) s1 (Some fd) i)]) (smap st1) (astack st1) (alog st1))).
    { apply inv_new_obj; [exact I1|]. intros m s Hm Hr. injection Hm as <-. injection Hr as <-. rewrite O1. apply W1. reflexivity. }
    apply inv_say; [|exact Logic.I]. apply (inv_map _ (map_set (smap st1) fd (length (objs st))) I2).
    intros g y H. apply map_set_in in H as [[-> ->]|H]; [|exact (i_map _ I2 g y H)].
    unfold obj. cbn [objs]. rewrite O1, nth_error_app2, Nat.sub_diag by lia. cbn. eauto.
  - destruct (fd_free st fd); [|discriminate]. unfold with_obj in S. destruct (auser (astack st)) eqn:U; [|discriminate]. pose proof (user_calls st G U) as Ca.
    destruct (obj st o) as [m|] eqn:O; [|discriminate]. injection S as <-.
    assert (Out : forall st1 s, inv st1 -> astack st1 = astack st -> let f := (fun st0 s => match nth_error (socks st0) s with Some k => if k_open k then say (match r with Ok _ => say st0 (ESentto s q dst) | Err _ => st0 end) (ESend o r) else say st0 (ESend o (Err OSError)) | None => st0 end) in inv (f st1 s) /\ good_stack (f st1 s)).
    { intros st1 s I1 E1 f. unfold f. destruct (nth_error (socks st1) s) as [k|]; [|split; [exact I1|apply (calls_good' st); assumption]]. destruct (k_open k).
      - destruct r; (split; [repeat (apply inv_say; [|exact Logic.I]); exact I1|apply (calls_good' st); assumption]).
      - split; [apply inv_say; [exact I1|exact Logic.I]|apply (calls_good' st); assumption]. }
    unfold asend. destruct (a_role m) as [s|] eqn:R; [apply Out; auto|].
    destruct (kopen st o op fd) as [[st1 s1] r1] eqn:K. destruct (inv_kopen _ _ _ _ _ _ _ I K) as (I1 & O1 & M1 & A1 & W1).
    destruct s1 as [s1|].
    + assert (I2 : inv (set_obj st1 o (mkA (Some s1) (a_socket m) (a_fileno m) (a_interface m)))).
      { eapply inv_obj; [exact I1|unfold obj; rewrite O1; exact O|]. intros s Hs. injection Hs as <-. right. apply W1. reflexivity. }
      destruct r1 as [u|e]; [apply Out; [exact I2|exact A1]|]. split; [apply inv_say; [exact I2|exact Logic.I]|apply (calls_good' st); [exact Ca|exact A1]].
    + destruct r1 as [u|e]; [split; [exact I1|apply (calls_good' st); assumption]|]. split; [apply inv_say; [exact I1|exact Logic.I]|apply (calls_good' st); [exact Ca|exact A1]].
  - unfold with_obj in S. destruct (auser (astack st)) eqn:U; [|discriminate]. pose proof (user_calls st G U) as Ca. destruct (obj st o) as [m|] eqn:O; [|discriminate]. injection S as <-.
    unfold apoll. destruct (forallb _ _); [apply inv_serve; [apply inv_say; [exact I|exact Logic.I]|exact Ca]|].
    split; [apply inv_say; [apply inv_stack; apply inv_say; [exact I|exact Logic.I]|exact Logic.I]|apply calls_good; exact Ca].
  - unfold with_obj in S. destruct (auser (astack st)) eqn:U; [|discriminate]. pose proof (user_calls st G U) as Ca. destruct (obj st o) as [m|] eqn:O; [|discriminate]. injection S as <-.
    unfold ahandle_close. destruct (a_role m) as [s|]; [|split; [apply inv_say; [exact I|exact Logic.I]|apply (calls_good' st); auto]].
    destruct (kclose st s r) as [st1 r1] eqn:K. destruct (inv_kclose _ _ _ _ _ I K) as (I1 & O1 & M1 & A1 & L1).
    destruct r1 as [u|e]; (split; [apply inv_say; [|exact Logic.I]|apply (calls_good' st); [exact Ca|exact A1]]); [|exact I1].
    eapply inv_obj; [exact I1|unfold obj; rewrite O1; exact O|discriminate].
  - unfold with_obj in S. destruct (auser (astack st)) eqn:U; [|discriminate]. pose proof (user_calls st G U) as Ca. destruct (obj st o) as [m|] eqn:O; [|discriminate]. injection S as <-.
    unfold aclose. set (st1 := match a_fileno m with Some fd => set_map st (map_del (smap st) fd) | None => st end).
    assert (I1 : inv st1 /\ astack st1 = astack st /\ obj st1 o = Some m).
    { unfold st1. destruct (a_fileno m) as [fd|]; [|auto]. split; [apply inv_map; [exact I|intros g y H; apply map_del_in in H; exact (i_map _ I g y H)]|split; [reflexivity|exact O]]. }
    destruct I1 as (I1 & A1 & O1). 
    assert (I2 : inv (set_obj st1 o (mkA (a_role m) (a_socket m) None (a_interface m)))) by (eapply inv_obj; [exact I1|exact O1|cbn; auto]).
    destruct (kclose _ (a_socket m) r) as [st3 r3] eqn:K. destruct (inv_kclose _ _ _ _ _ I2 K) as (I3 & _ & _ & A3 & _).
    split; [apply inv_say; [exact I3|exact Logic.I]|apply (calls_good' st); [exact Ca|cbn [say astack]; rewrite A3; exact A1]].
  - unfold good_stack in G. destruct (astack st) as [|[p0 r0|o ie|o s] [|[p rest|o' ie'|o' s'] k]] eqn:E; try discriminate. injection S as <-.
    apply inv_serve; [apply inv_say; [exact I|exact Logic.I]|exact G].
  - unfold good_stack in G. destruct (astack st) as [|[p0 r0|o ie|o s] [|[p rest|o' ie'|o' s'] k]] eqn:E; try discriminate. injection S as <-.
    assert (I1 : inv (say st (ECbEnd o (Err e)))) by (apply inv_say; [exact I|exact Logic.I]).
    destruct ie; [|apply inv_read_error; assumption]. split; [apply inv_say; [apply inv_stack; exact I1|exact Logic.I]|apply calls_good; exact G].
  - destruct (nth_error (socks st) s) as [ks|] eqn:K; [|discriminate]. destruct (k_open ks) eqn:Op; [|discriminate].
    assert (O1 : forall t y, opened_by (alog st ++ [EArrive s x]) t y <-> opened_by (alog st) t y).
    { intros t y. split; [intros [g H]; exists g; apply in_app_or in H as [H|[H|[]]]; [exact H|discriminate]|apply opened_more]. }
    assert (Al : almost (say st (EArrive s x)) s x \/ queued st s <> []).
    { destruct (queued st s) as [|y q'] eqn:Q; [left|right; discriminate]. destruct I as [A B C D E F]. constructor; cbn [say socks objs smap alog]; unfold obj in *; cbn [objs].
      - intros y m t Hy Hr. apply O1. eapply A; eassumption.
      - intros t y H. apply O1 in H. eauto.
      - intros t y y' H H'. apply O1 in H. apply O1 in H'. eauto.
      - exact D.
      - apply ok_other; [exact E|discriminate|discriminate].
      - intros t. rewrite arrivals_app, received_app, F. cbn. rewrite !app_nil_r. unfold queued in *. cbn [say socks]. destruct (Nat.eqb_spec s t) as [<-|]; cbn; rewrite ?Q, ?app_nil_r; reflexivity. }
    assert (En : inv (set_queue (say st (EArrive s x)) s (k_queue ks ++ [x])) /\ astack (set_queue (say st (EArrive s x)) s (k_queue ks ++ [x])) = astack st /\
      (forall t, t <> s -> queued (set_queue (say st (EArrive s x)) s (k_queue ks ++ [x])) t = queued st t) /\ forall t y, opened_by (alog st) t y -> opened_by (alog (set_queue (say st (EArrive s x)) s (k_queue ks ++ [x]))) t y).
    { unfold set_queue. cbn [say socks objs smap astack alog]. rewrite K. cbn [astack alog]. split; [|split; [reflexivity|split; [|intros t y H; apply O1; exact H]]].
      - destruct I as [A B C D E F]. constructor; cbn [socks objs smap alog]; unfold obj in *; cbn [objs].
        + intros y m t Hy Hr. apply O1. eapply A; eassumption.
        + intros t y H. rewrite upd_length. apply O1 in H. eauto.
        + intros t y y' H H'. apply O1 in H. apply O1 in H'. eauto.
        + exact D.
        + apply ok_other; [exact E|discriminate|discriminate].
        + intros t. rewrite arrivals_app, received_app, F. cbn. rewrite !app_nil_r. unfold queued. cbn [socks]. rewrite nth_upd.
          destruct (Nat.eqb_spec s t) as [<-|]; [rewrite K; cbn [k_queue]; rewrite app_assoc; reflexivity|rewrite app_nil_r; reflexivity].
      - intros t N. unfold queued. cbn [socks]. rewrite nth_upd. destruct (Nat.eqb_spec s t) as [->|]; [contradiction|reflexivity]. }
    destruct En as (En & Ea & Eq & Eo).
    unfold good_stack in G. destruct (astack st) as [|[p0 r0|o ie|o s0] [|[p rest|o' ie'|o' s'] k]] eqn:E; try (destruct G; fail); try (injection S as <-; split; [exact En|apply calls_good; rewrite Ea; exact G]).
    destruct G as (Ow & Q & Ca). destruct (Nat.eqb_spec s s0) as [<-|N]; injection S as <-.
    + destruct Al as [Al|Al]; [|contradiction]. apply inv_got; [exact Al|apply O1; exact Ow|exact Ca].
    + split; [exact En|]. unfold good_stack. rewrite Ea. split; [apply Eo; exact Ow|]. split; [rewrite Eq by congruence; exact Q|exact Ca].
Qed.
Lemma inv_init : inv ainit /\ good_stack ainit.
Proof.
  split; [|exact Logic.I]. constructor; cbn.
  - intros o m s H. unfold obj in H. cbn in H. destruct o; discriminate.
  - intros s o [fd []].
  - intros s o o' [fd []].
  - intros fd o [].
  - constructor.
  - intros s. destruct s; reflexivity.
Qed.
Theorem asteps_inv tr : forall st st', inv st -> good_stack st -> asteps st tr = Some st' -> inv st' /\ good_stack st'.
Proof.
  induction tr as [|l tr IH]; intros st st' I G S; cbn [asteps] in S; [injection S as <-; auto|].
  destruct (astep st l) as [st1|] eqn:E; [|discriminate]. destruct (astep_inv _ _ _ I G E). eapply IH; eassumption.
Qed.
Theorem aexec_inv tr st : aexec tr = Some st -> inv st /\ good_stack st.
Proof. intros H. destruct inv_init. eapply asteps_inv; eassumption. Qed.

(** ** What the log says *)
Lemma snoc_cons {A} (l pre post : list A) x y : l ++ [x] = pre ++ y :: post -> (post = [] /\ pre = l /\ x = y) \/ exists post', post = post' ++ [x] /\ l = pre ++ y :: post'.
Proof.
  intros H. destruct post as [|z post _] using rev_ind.
  - left. apply app_inj_tail in H as [-> ->]. auto.
  - right. exists post. change (y :: post ++ [z]) with ((y :: post) ++ [z]) in H. rewrite app_assoc in H. apply app_inj_tail in H as [-> ->]. auto.
Qed.
Lemma ok_log_recv lg : ok_log lg -> forall pre s d a post, lg = pre ++ ERecv s (Ok (d, a)) :: post -> exists o post', post = ECb o (Data d a) :: post' /\ opened_by pre s o.
Proof.
  induction 1 as [|lg e L IH N1 N2|lg s0 o0 d0 a0 L IH Ow]; intros pre s d a post H.
  - destruct pre; discriminate.
  - apply snoc_cons in H as [(-> & -> & ->)|(post' & -> & ->)]; [elim (N1 s (d, a)); reflexivity|].
    destruct (IH _ _ _ _ _ eq_refl) as (o & p' & -> & Q). exists o. eexists. split; [reflexivity|exact Q].
  - apply snoc_cons in H as [(_ & _ & X)|(post' & -> & X)]; [discriminate|].
    apply snoc_cons in X as [(-> & -> & X)|(post'' & -> & ->)]; [injection X as <- <- <-; exists o0, []; auto|].
    destruct (IH _ _ _ _ _ eq_refl) as (o & p' & -> & Q). exists o. eexists. split; [reflexivity|exact Q].
Qed.
Lemma ok_log_cb lg : ok_log lg -> forall pre o d a post, lg = pre ++ ECb o (Data d a) :: post -> exists s pre', pre = pre' ++ [ERecv s (Ok (d, a))] /\ opened_by pre' s o.
Proof.
  induction 1 as [|lg e L IH N1 N2|lg s0 o0 d0 a0 L IH Ow]; intros pre o d a post H.
  - destruct pre; discriminate.
  - apply snoc_cons in H as [(-> & -> & ->)|(post' & -> & ->)]; [elim (N2 o d a); reflexivity|]. eapply IH. reflexivity.
  - apply snoc_cons in H as [(_ & -> & X)|(post' & -> & X)]; [injection X as <- <- <-; exists s0, lg; auto|].
    apply snoc_cons in X as [(_ & _ & X)|(post'' & -> & ->)]; [discriminate|]. eapply IH. reflexivity.
Qed.

(** ** Without handle_close *)
Definition descr (k : ksock) : Z * bool := (k_fd k, k_open k).
(** Nothing but queues, stack and log changed. *)
Definition same_shape (st st' : astate) : Prop := objs st' = objs st /\ smap st' = smap st /\ map descr (socks st') = map descr (socks st).
Lemma same_refl st : same_shape st st. Proof. repeat split. Qed.
Lemma same_trans a b c : same_shape a b -> same_shape b c -> same_shape a c.
Proof. intros (A & B & C) (D & E & F). repeat split; congruence. Qed.
Lemma shape_nth st st' s k : same_shape st st' -> nth_error (socks st) s = Some k -> exists k', nth_error (socks st') s = Some k' /\ descr k' = descr k.
Proof.
  intros (_ & _ & D) N. assert (X : nth_error (map descr (socks st')) s = Some (descr k)) by (rewrite D; apply map_nth_error; exact N).
  destruct (nth_error (socks st') s) as [k'|] eqn:E; [rewrite (map_nth_error _ _ _ E) in X; exists k'; split; [reflexivity|congruence]|].
  exfalso. apply nth_error_None in E. assert (Y : nth_error (map descr (socks st')) s = None) by (apply nth_error_None; rewrite map_length; exact E). congruence.
Qed.
Lemma shape_sym a b : same_shape a b -> same_shape b a.
Proof. intros (A & B & C). repeat split; congruence. Qed.
Record sound (st : astate) : Prop := {
  h_map : forall fd o, In (fd, o) (smap st) -> exists m s k, obj st o = Some m /\ a_role m = Some s /\ a_socket m = s /\ a_fileno m = Some fd /\
            nth_error (socks st) s = Some k /\ k_open k = true /\ k_fd k = fd;
  h_role : forall o m, obj st o = Some m -> a_role m = Some (a_socket m);
  h_nodup : NoDup (map fst (smap st));
  h_fds : forall s t k k', nth_error (socks st) s = Some k -> nth_error (socks st) t = Some k' -> k_open k = true -> k_open k' = true -> k_fd k = k_fd k' -> s = t }.
Lemma sound_shape st st' : sound st -> same_shape st st' -> sound st'.
Proof.
  intros [A B C D] S. pose proof S as (O & M & _). constructor.
  - intros fd o H. rewrite M in H. destruct (A fd o H) as (m & s & k & H1 & H2 & H3 & H4 & H5 & H6 & H7).
    destruct (shape_nth _ _ _ _ S H5) as (k' & N & E). unfold descr in E. injection E as E1 E2. exists m, s, k'. unfold obj in *. rewrite O. repeat split; try assumption; congruence.
  - unfold obj in *. rewrite O. exact B.
  - rewrite M. exact C.
  - intros s t k k' N N' E E' F. destruct (shape_nth _ _ _ _ (shape_sym _ _ S) N) as (k1 & N1 & D1). destruct (shape_nth _ _ _ _ (shape_sym _ _ S) N') as (k2 & N2 & D2).
    unfold descr in *. injection D1 as D1 D1'. injection D2 as D2 D2'. apply (D s t k1 k2); congruence.
Qed.
Lemma at_fd_some st fd k : at_fd st fd = Some k -> exists s, nth_error (socks st) s = Some k /\ k_open k = true /\ k_fd k = fd.
Proof.
  intros H. apply find_some in H as [I E]. apply In_nth_error in I as [s N]. apply andb_true_iff in E as [E1 E2]. apply Z.eqb_eq in E2. eauto.
Qed.
Lemma at_fd_none st fd s k : at_fd st fd = None -> nth_error (socks st) s = Some k -> k_open k = true -> k_fd k <> fd.
Proof.
  intros H N O E. apply find_none with (x := k) in H; [|eapply nth_error_In; exact N]. rewrite O in H. cbn in H. apply Z.eqb_neq in H. contradiction.
Qed.
Lemma at_fd_here st fd s k : sound st -> nth_error (socks st) s = Some k -> k_open k = true -> k_fd k = fd -> at_fd st fd = Some k.
Proof.
  intros S N O F. destruct (at_fd st fd) as [k'|] eqn:E; [|elim (at_fd_none _ _ _ _ E N O F)].
  apply at_fd_some in E as (t & N' & O' & F'). assert (t = s) by (apply (h_fds _ S t s k' k); congruence). subst t. congruence.
Qed.
Lemma shape_say st e : same_shape st (say st e). Proof. repeat split. Qed.
Lemma shape_stack st k : same_shape st (set_stack st k). Proof. repeat split. Qed.
Lemma descr_upd l s k q : nth_error l s = Some k -> map descr (upd l s (mkK (k_fd k) (k_open k) q)) = map descr l.
Proof. revert s. induction l as [|y l IH]; intros [|s] H; try discriminate; cbn in *; [injection H as ->; reflexivity|rewrite IH by exact H; reflexivity]. Qed.
Lemma shape_queue st s q : same_shape st (set_queue st s q).
Proof. unfold set_queue. destruct (nth_error (socks st) s) as [k|] eqn:E; [|apply same_refl]. repeat split. cbn [socks]. apply descr_upd. exact E. Qed.
Lemma shape_read_error st p rest k o e : same_shape st (read_error st p rest k o e).
Proof. destruct e; repeat split. Qed.
Lemma shape_got st p rest k o s x : same_shape st (got st p rest k o s x).
Proof. unfold got. destruct x as [[d a]|e]; [repeat split|]. eapply same_trans; [apply shape_say|apply shape_read_error]. Qed.
Lemma shape_handle_read st p rest k o : same_shape st (handle_read st p rest k o).
Proof.
  unfold handle_read. destruct (obj st o) as [m|]; [|apply same_refl]. destruct (a_role m) as [s|]; [|apply shape_read_error].
  destruct (nth_error (socks st) s) as [ks|]; [|apply same_refl]. destruct (k_open ks); [|apply shape_read_error]. destruct (k_queue ks); [apply shape_stack|].
  eapply same_trans; [apply shape_queue|apply shape_got].
Qed.
Lemma shape_serve ready : forall st p k, same_shape st (serve st p ready k).
Proof. induction ready as [|fd r IH]; intros st p k; cbn [serve]; [repeat split|]. destruct (map_get (smap st) fd); [apply shape_handle_read|apply IH]. Qed.

(** *** Preservation *)
Lemma map_set_keys m fd o : map fst (map_set m fd o) = if existsb (Z.eqb fd) (map fst m) then map fst m else map fst m ++ [fd].
Proof.
  induction m as [|[k x] m IH]; [reflexivity|]. cbn [map_set map fst existsb]. rewrite (Z.eqb_sym fd k). destruct (Z.eqb_spec k fd) as [->|]; [reflexivity|].
  cbn [map fst orb]. rewrite IH. destruct (existsb (Z.eqb fd) (map fst m)); reflexivity.
Qed.
Lemma map_set_nodup m fd o : NoDup (map fst m) -> NoDup (map fst (map_set m fd o)).
Proof.
  intros N. rewrite map_set_keys. destruct (existsb (Z.eqb fd) (map fst m)) eqn:E; [exact N|].
  assert (X : ~ In fd (map fst m)). { intros I. assert (existsb (Z.eqb fd) (map fst m) = true) by (apply existsb_exists; exists fd; split; [exact I|apply Z.eqb_refl]). congruence. }
  induction (map fst m) as [|y l IH]; cbn; [repeat constructor; auto|].
  inversion N as [|? ? N1 N2]; subst. constructor.
  - intros I. apply in_app_or in I as [I|[->|[]]]; [contradiction|]. apply X. left. reflexivity.
  - apply IH; [exact N2| |intros I; apply X; right; exact I]. cbn [existsb] in E. apply orb_false_iff in E. tauto.
Qed.
Lemma map_del_nodup m fd : NoDup (map fst m) -> NoDup (map fst (map_del m fd)).
Proof.
  induction m as [|[k x] m IH]; cbn; [auto|]. intros N. inversion N as [|? ? N1 N2]; subst. destruct (k =? fd); [exact N2|]. cbn. constructor; [|auto].
  intros I. apply N1. apply in_map_iff in I as ([a b] & <- & I). apply map_del_in in I. apply in_map_iff. exists (a, b). auto.
Qed.
Lemma map_del_not m fd : NoDup (map fst m) -> ~ In fd (map fst (map_del m fd)).
Proof.
  induction m as [|[k x] m IH]; cbn; [auto|]. intros N. inversion N as [|? ? N1 N2]; subst. destruct (Z.eqb_spec k fd) as [->|Ne]; [exact N1|]. cbn. intros [E|I]; [contradiction|]. apply IH; assumption.
Qed.
Lemma shape_astep_serve st st1 st' : sound st -> same_shape st st1 -> same_shape st1 st' -> sound st'.
Proof. intros S A B. eapply sound_shape; [exact S|eapply same_trans; eassumption]. Qed.
Lemma sound_kopen st o op fd st' s r : sound st -> fd_free st fd = true -> kopen st o op fd = (st', s, r) ->
  sound st' /\ objs st' = objs st /\ smap st' = smap st /\ (forall t, s = Some t -> nth_error (socks st') t = Some (mkK fd true [])) /\
  (forall t k, nth_error (socks st) t = Some k -> nth_error (socks st') t = Some k).
Proof.
  intros [A B C D] Fr H. unfold kopen in H. destruct (o_socket op); [|injection H as <- <- <-; split; [constructor; assumption|]; repeat split; [discriminate|auto]].
  injection H as <- <- <-. cbn [say socks objs smap].
  assert (Fx : at_fd st fd = None) by (unfold fd_free in Fr; destruct (at_fd st fd); [discriminate|reflexivity]).
  assert (Old : forall t k, nth_error (socks st) t = Some k -> nth_error (socks st ++ [mkK fd true []]) t = Some k).
  { intros t k N. rewrite nth_error_app1; [exact N|]. apply nth_error_Some. congruence. }
  assert (New : forall t k, nth_error (socks st ++ [mkK fd true []]) t = Some k -> nth_error (socks st) t = Some k \/ (t = length (socks st) /\ k = mkK fd true [])).
  { intros t k N. destruct (Nat.lt_trichotomy t (length (socks st))) as [L|[->|L]].
    - rewrite nth_error_app1 in N by exact L. auto.
    - rewrite nth_error_app2, Nat.sub_diag in N by lia. cbn in N. injection N as <-. auto.
    - rewrite (proj2 (nth_error_None _ _)) in N; [discriminate|rewrite app_length; cbn; lia]. }
  split; [|split; [reflexivity|split; [reflexivity|split; [intros t T; injection T as <-; rewrite nth_error_app2, Nat.sub_diag by lia; reflexivity|exact Old]]]].
  constructor; cbn [socks smap].
  - intros g o' I. destruct (A g o' I) as (m & s & k & H1 & H2 & H3 & H4 & H5 & H6 & H7). exists m, s, k. repeat split; try assumption. apply Old. exact H5.
  - exact B.
  - exact C.
  - intros s t k k' N N' O O' F. apply New in N as [N|[-> ->]]; apply New in N' as [N'|[-> ->]]; [eapply D; eassumption| | |reflexivity].
    + cbn in F. elim (at_fd_none _ _ _ _ Fx N O F).
    + cbn in F. elim (at_fd_none _ _ _ _ Fx N' O' (eq_sym F)).
Qed.
Theorem astep_sound st l st' : inv st -> sound st -> astep st l = Some st' -> (forall o r, l <> AHandleClose o r) -> sound st'.
Proof.
  intros I S E NH. destruct l as [cb i op fd|o q dst op fd r|o|o r|o r| |e|s x]; cbn [astep] in E.
  - destruct (auser (astack st)); [|discriminate]. destruct (fd_free st fd) eqn:Fr; [|discriminate]. cbn in E. injection E as <-.
    assert (Fl : forall st1 e, sound st1 -> objs st1 = objs st -> sound (say (mkAS (socks st1) (objs st1 ++ [None]) (smap st1) (astack st1) (alog st1)) (ENew (length (objs st)) (Err e)))).
    { intros st1 e S1 O1. assert (N : forall y m, obj (mkAS (socks st1) (objs st1 ++ [None]) (smap st1) (astack st1) (alog st1)) y = Some m <-> obj st1 y = Some m).
      { intros y m. unfold obj. cbn [objs]. destruct (Nat.lt_trichotomy y (length (objs st1))) as [L|[->|L]].
        - rewrite nth_error_app1 by exact L. tauto.
        - rewrite nth_error_app2, Nat.sub_diag by lia. cbn. rewrite (proj2 (nth_error_None (objs st1) _)) by lia. tauto.
        - rewrite (proj2 (nth_error_None (objs st1 ++ [None]) y)) by (rewrite app_length; cbn; lia). rewrite (proj2 (nth_error_None (objs st1) y)) by lia. tauto. }
      apply (sound_shape (mkAS (socks st1) (objs st1 ++ [None]) (smap st1) (astack st1) (alog st1))); [|apply shape_say]. destruct S1 as [A B C D]. constructor; try assumption.
      - intros g y J. destruct (A g y J) as (m & s & k & H1 & H2). exists m, s, k. split; [apply N; exact H1|exact H2].
      - intros y m J. apply N in J. eauto. }
    unfold anew. destruct cb as [[|]| |]; try (apply Fl; auto; fail).
    destruct (kopen st (length (objs st)) op fd) as [[st1 s1] r1] eqn:K. destruct (sound_kopen _ _ _ _ _ _ _ S Fr K) as (S1 & O1 & M1 & W1 & Old).
    destruct s1 as [s1|], r1 as [[]|e]; try (apply Fl; assumption).
    eapply sound_shape; [|apply shape_say].
    assert (N : forall y m, obj (mkAS (socks st1) (objs st1 ++ [Some (mkA (Some s1) s1 (Some fd) i)]) (map_set (smap st1) fd (length (objs st))) (astack st1) (alog st1)) y = Some m <->
      obj st1 y = Some m \/ (y = length (objs st) /\ m = mkA (Some s1) s1 (Some fd) i)).
    { intros y m. unfold obj. cbn [objs]. rewrite <- O1. destruct (Nat.lt_trichotomy y (length (objs st1))) as [L|[->|L]].
      - rewrite nth_error_app1 by exact L. split; [auto|intros [H|[-> _]]; [exact H|lia]].
      - rewrite nth_error_app2, Nat.sub_diag by lia. cbn. rewrite (proj2 (nth_error_None (objs st1) _)) by lia. split; [intros H; injection H as <-; auto|intros [H|[_ ->]]; [discriminate|reflexivity]].
      - rewrite (proj2 (nth_error_None (objs st1 ++ [_]) y)) by (rewrite app_length; cbn; lia). rewrite (proj2 (nth_error_None (objs st1) y)) by lia. split; [discriminate|intros [H|[-> _]]; [discriminate|lia]]. }
    destruct S1 as [A B C D]. constructor; cbn [socks smap].
    + intros g y J. apply map_set_in in J as [[-> ->]|J].
      * exists (mkA (Some s1) s1 (Some fd) i), s1, (mkK fd true []). split; [apply N; auto|]. repeat split. apply W1. reflexivity.
      * destruct (A g y J) as (m & s & k & H1 & H2). exists m, s, k. split; [apply N; auto|exact H2].
    + intros y m J. apply N in J as [J|[-> ->]]; [eauto|reflexivity].
    + apply map_set_nodup. exact C.
    + exact D.
  - destruct (fd_free st fd) eqn:Fr; [|discriminate]. unfold with_obj in E. destruct (auser (astack st)); [|discriminate]. destruct (obj st o) as [m|] eqn:O; [|discriminate]. injection E as <-.
    unfold asend. rewrite (h_role _ S o m O). destruct (nth_error (socks st) (a_socket m)) as [k|]; [|exact S]. destruct (k_open k); [|eapply sound_shape; [exact S|apply shape_say]].
    destruct r; (eapply sound_shape; [exact S|repeat split]).
  - unfold with_obj in E. destruct (auser (astack st)); [|discriminate]. destruct (obj st o) as [m|] eqn:O; [|discriminate]. injection E as <-. unfold apoll.
    destruct (forallb _ _); [|eapply sound_shape; [exact S|repeat split]]. eapply shape_astep_serve; [exact S|apply shape_say|apply shape_serve].
  - elim (NH o r). reflexivity.
  - unfold with_obj in E. destruct (auser (astack st)); [|discriminate]. destruct (obj st o) as [m|] eqn:O; [|discriminate]. injection E as <-.
    unfold aclose. set (st1 := match a_fileno m with Some fd => set_map st (map_del (smap st) fd) | None => st end).
    assert (X1 : objs st1 = objs st /\ socks st1 = socks st /\ NoDup (map fst (smap st1)) /\ forall g y, In (g, y) (smap st1) -> In (g, y) (smap st) /\ y <> o).
    { destruct S as [A B C D]. unfold st1. destruct (a_fileno m) as [fd|] eqn:Fn; cbn [set_map objs socks smap].
      - split; [reflexivity|]. split; [reflexivity|]. split; [apply map_del_nodup; exact C|]. intros g y J. split; [eapply map_del_in; exact J|]. intros ->.
        destruct (A g o (map_del_in _ _ _ _ J)) as (m' & s & k & H1 & _ & _ & H4 & _). rewrite O in H1. injection H1 as <-. rewrite Fn in H4. injection H4 as <-.
        apply (map_del_not (smap st) fd C). apply in_map_iff. exists (fd, o). auto.
      - split; [reflexivity|]. split; [reflexivity|]. split; [exact C|]. intros g y J. split; [exact J|]. intros ->.
        destruct (A g o J) as (m' & s & k & H1 & _ & _ & H4 & _). rewrite O in H1. injection H1 as <-. congruence. }
    destruct X1 as (O1 & K1 & N1 & M1). clearbody st1.
    assert (S2 : sound (set_obj st1 o (mkA (a_role m) (a_socket m) None (a_interface m)))).
    { assert (N : forall y, obj (set_obj st1 o (mkA (a_role m) (a_socket m) None (a_interface m))) y = if Nat.eqb o y then Some (mkA (a_role m) (a_socket m) None (a_interface m)) else obj st y).
      { intros y. unfold obj, set_obj in *. cbn [objs]. rewrite nth_upd, O1. destruct (Nat.eqb_spec o y) as [<-|]; [|reflexivity]. destruct (nth_error (objs st) o); [reflexivity|discriminate]. }
      destruct S as [A B C D]. constructor; cbn [set_obj smap socks]; rewrite ?K1.
      - intros g y J. destruct (M1 g y J) as [J' Ne]. destruct (A g y J') as (m' & s & k & H1 & H2). exists m', s, k. split; [|exact H2]. rewrite N. destruct (Nat.eqb_spec o y); [congruence|exact H1].
      - intros y m' J. rewrite N in J. destruct (Nat.eqb_spec o y) as [<-|]; [injection J as <-; cbn; apply (B o m O)|eauto].
      - exact N1.
      - exact D. }
    set (st2 := set_obj st1 o (mkA (a_role m) (a_socket m) None (a_interface m))) in *.
    assert (Ow : forall y m', obj st y = Some m' -> a_socket m' = a_socket m -> y = o).
    { intros y m' J Eq. eapply (i_owner st I (a_socket m)); [|eapply (i_role st I); [exact O|exact (h_role _ S o m O)]].
      eapply (i_role st I); [exact J|rewrite <- Eq; exact (h_role _ S y m' J)]. }
    unfold kclose. destruct (nth_error (socks st2) (a_socket m)) as [k|] eqn:Nk; [|eapply sound_shape; [exact S2|apply shape_say]].
    destruct (k_open k) eqn:Ok'; [|eapply sound_shape; [exact S2|apply shape_say]]. unfold set_open. rewrite Nk. cbv zeta. eapply sound_shape; [|apply shape_say].
    destruct S2 as [A B C D]. constructor; cbn [socks smap]; try assumption.
    + intros g y J. destruct (A g y J) as (m' & s & k' & H1 & H2 & H3 & H4 & H5 & H6 & H7). exists m', s, k'. repeat split; try assumption. rewrite nth_upd.
      destruct (Nat.eqb_spec (a_socket m) s) as [Eq|]; [|exact H5]. exfalso. assert (Ne : y <> o) by (apply (M1 g y); exact J). apply Ne.
      apply (Ow y m'); [|congruence]. unfold obj, st2, set_obj in H1. cbn [objs] in H1. rewrite nth_upd, O1 in H1. destruct (Nat.eqb_spec o y); [congruence|exact H1].
    + intros s t k1 k2 Q Q' E1 E2 F. rewrite nth_upd in Q, Q'. destruct (Nat.eqb_spec (a_socket m) s) as [Es|]; [rewrite Nk in Q; injection Q as <-; discriminate E1|].
      destruct (Nat.eqb_spec (a_socket m) t) as [Et|]; [rewrite Nk in Q'; injection Q' as <-; discriminate E2|]. eapply D; eassumption.
  - destruct (astack st) as [|[p0 r0|o ie|o s] [|[p rest|o' ie'|o' s'] k]]; try discriminate. injection E as <-. eapply shape_astep_serve; [exact S|apply shape_say|apply shape_serve].
  - destruct (astack st) as [|[p0 r0|o ie|o s] [|[p rest|o' ie'|o' s'] k]]; try discriminate. injection E as <-. destruct ie; [eapply sound_shape; [exact S|repeat split]|].
    eapply shape_astep_serve; [exact S|apply shape_say|apply shape_read_error].
  - destruct (nth_error (socks st) s) as [ks|] eqn:K; [|discriminate]. destruct (k_open ks); [|discriminate].
    assert (X : sound (set_queue (say st (EArrive s x)) s (k_queue ks ++ [x]))) by (eapply shape_astep_serve; [exact S|apply shape_say|apply shape_queue]).
    assert (Y : forall p rest k o, sound (got (say st (EArrive s x)) p rest k o s x)) by (intros; eapply shape_astep_serve; [exact S|apply shape_say|apply shape_got]).
    destruct (astack st) as [|[p0 r0|o ie|o s0] [|[p rest|o' ie'|o' s'] k]]; try (injection E as <-; assumption).
    destruct (Nat.eqb s s0); injection E as <-; auto.
Qed.
Lemma sound_init : sound ainit.
Proof.
  constructor; cbn; [intros fd o []|intros o m H; unfold obj in H; destruct o; discriminate|constructor|intros s t k k' H; destruct s; discriminate].
Qed.
Theorem aexec_sound tr : never_handle_close tr -> forall st, aexec tr = Some st -> sound st.
Proof.
  induction tr as [|l tr IH] using rev_ind; intros NH st E; [injection E as <-; apply sound_init|].
  unfold aexec in *. rewrite asteps_app in E. destruct (asteps ainit tr) as [st0|] eqn:E0; [|discriminate]. cbn [asteps] in E. destruct (astep st0 l) as [st1|] eqn:E1; [|discriminate]. injection E as <-.
  eapply astep_sound; [exact (proj1 (aexec_inv tr st0 E0))|apply IH; [|reflexivity]|exact E1|].
  - intros o r I. apply (NH o r). apply in_or_app. auto.
  - intros o r ->. apply (NH o r). apply in_or_app. right. left. reflexivity.
Qed.

