(** * The stacks of a process and of asyncore go together, so the library never gets stuck. *)
From Coq Require Import ZArith List Bool Lia.
From Verif Require Import PyBase Classes Values Codec Manager Role Asyn Process SpecAsyn SpecProcess ProofsAsyn ProofsAsynLog ProofsHistory ProofsProcess ProofsProcessStep.
Import ListNotations.
Open Scope Z_scope.

(** User code runs on top of this, [a] being the stack of asyncore; and poll() of [p] was called by this. *)
Inductive below : list wframe -> list aframe -> Prop :=
| below_nil : below [] []
| below_resp o id k a p rest : polls p k a -> below (WResp o id :: k) (FCallback o false :: FPolling p rest :: a)
| below_trap o k a p rest : polls p k a -> below (WTrap o :: k) (FCallback o false :: FPolling p rest :: a)
| below_empty o k a : below k a -> below (WEmpty o :: WRun o Polling :: k) a
with polls : nat -> list wframe -> list aframe -> Prop :=
| polls_run p k a : below k a -> polls p (WRun p Polling :: k) a
| polls_user p k a : below k a -> polls p k a.
Inductive atop : list wframe -> list aframe -> Prop :=
| top_user k a : below k a -> atop k a
| top_run o ph k a : below k a -> atop (WRun o ph :: k) a
| top_got o d src k a p rest : polls p k a -> atop (WGot o d src :: k) (FCallback o false :: FPolling p rest :: a)
| top_exc o e k a p rest : polls p k a -> atop (WExc o e :: k) (FCallback o true :: FPolling p rest :: a)
| top_polled p r k a : polls p k a -> atop (WPolled p r :: k) a
| top_wait o s k a p rest : polls p k a -> atop (WWait :: k) (FBlocked o s :: FPolling p rest :: a).
Lemma below_user k a : below k a -> user_code k = true.
Proof. intros H. destruct H; reflexivity. Qed.
Lemma below_auser k a : below k a -> auser a = true.
Proof. intros H. induction H; try reflexivity. exact IHbelow. Qed.
Lemma atop_user k a : atop k a -> user_code k = true -> below k a.
Proof. intros H. destruct H; cbn; try discriminate; auto. Qed.

(** Everyone mentioned exists. *)
Definition mentions (f : wframe) : option nat :=
  match f with WResp o _ | WTrap o | WEmpty o | WRun o _ | WGot o _ _ | WExc o _ | WPolled o _ => Some o | WWait => None end.
Definition exist_all (A : astate) (k : list wframe) : Prop := Forall (fun f => forall o, mentions f = Some o -> obj A o <> None) k.
Definition pollers (A : astate) (a : list aframe) : Prop :=
  Forall (fun f => match f with FPolling p _ => obj A p <> None | FCallback o _ | FBlocked o _ => obj A o <> None end) a.

(** ** What asyncore comes to *)
Definition arrived (p : nat) (k : list aframe) (A : astate) : Prop :=
  (forall wk, polls p wk k -> atop (reached A :: wk) (astack A)) /\
  (forall o, mentions (reached A) = Some o -> obj A o <> None) /\
  pollers A (astack A).
Lemma pollers_same A A' a : objs A' = objs A -> pollers A a -> pollers A' a.
Proof. intros E. unfold pollers, obj. rewrite E. auto. Qed.
Lemma reached_say st e : reached (say st e) = match e with ECb o (Data d src) => WGot o d src | ECb o (Exc e) => WExc o e | EPollEnd p r => WPolled p r | _ => WWait end.
Proof. unfold reached. cbn. rewrite rev_app_distr. reflexivity. Qed.
Lemma arrived_end st p k r : obj st p <> None -> pollers st k -> arrived p k (poll_end st p k r).
Proof.
  intros O P. unfold arrived, poll_end. rewrite reached_say. split; [|split].
  - intros wk W. apply top_polled. exact W.
  - intros o X. injection X as <-. exact O.
  - exact P.
Qed.
Lemma arrived_error st p rest k o e : obj st p <> None -> obj st o <> None -> pollers st k -> arrived p k (read_error st p rest k o e).
Proof.
  intros O Oo P.
  assert (X : e = ValueError \/ read_error st p rest k o e = poll_end st p k (Err e)) by (destruct e; auto).
  destruct X as [->|X]; [|rewrite X; apply arrived_end; assumption]. cbn [read_error]. unfold arrived. rewrite reached_say. split; [|split].
  - intros wk W. apply top_exc. exact W.
  - intros y Y. injection Y as <-. exact Oo.
  - constructor; [exact Oo|]. constructor; [exact O|exact P].
Qed.
Lemma arrived_got st p rest k o s x : obj st p <> None -> obj st o <> None -> pollers st k -> arrived p k (got st p rest k o s x).
Proof.
  intros O Oo P. unfold got. destruct x as [[d src]|e]; [|apply arrived_error; assumption].
  unfold arrived. rewrite reached_say. split; [|split].
  - intros wk W. apply top_got. exact W.
  - intros y Y. injection Y as <-. exact Oo.
  - constructor; [exact Oo|]. constructor; [exact O|exact P].
Qed.
Lemma queue_objs st s q : objs (set_queue st s q) = objs st.
Proof. unfold set_queue. destruct (nth_error (socks st) s); reflexivity. Qed.
Lemma queue_obj st s q o : obj (set_queue st s q) o = obj st o.
Proof. unfold obj. rewrite queue_objs. reflexivity. Qed.
Lemma arrived_serve ready : forall st p k, inv st -> obj st p <> None -> pollers st k -> reached st = WWait -> arrived p k (serve st p ready k).
Proof.
  induction ready as [|fd ready IH]; intros st p k J O P R; cbn [serve]; [apply arrived_end; assumption|].
  destruct (map_get (smap st) fd) as [o|] eqn:M; [|apply IH; assumption]. apply map_get_in in M. destruct (i_map _ J _ _ M) as [m Oo].
  unfold handle_read. rewrite Oo. assert (Oo' : obj st o <> None) by congruence.
  destruct (a_role m) as [s|] eqn:Ro; [|apply arrived_error; assumption].
  pose proof (i_opened _ J _ _ (i_role _ J _ _ _ Oo Ro)) as Ls. apply nth_error_Some in Ls. destruct (nth_error (socks st) s) as [ks|]; [|contradiction].
  destruct (k_open ks); [|apply arrived_error; assumption]. destruct (k_queue ks) as [|x q].
  - unfold arrived. change (reached (set_stack st (FBlocked o s :: FPolling p ready :: k))) with (reached st). rewrite R. split; [|split].
    + intros wk W. apply top_wait. exact W.
    + intros y Y. discriminate Y.
    + constructor; [exact Oo'|]. constructor; [exact O|exact P].
  - apply arrived_got; rewrite ?queue_obj; auto. eapply pollers_same; [apply queue_objs|exact P].
Qed.
Lemma say_obj st e o : obj (say st e) o = obj st o. Proof. reflexivity. Qed.
Lemma arrived_poll st p : inv st -> obj st p <> None -> pollers st (astack st) -> arrived p (astack st) (apoll st p).
Proof.
  intros J O P. unfold apoll. destruct (forallb _ _); [|apply arrived_end; assumption].
  apply arrived_serve; auto; [apply inv_say; auto; exact Logic.I|rewrite reached_say; reflexivity].
Qed.
Lemma arrived_return st o b p rest k : inv st -> astack st = FCallback o b :: FPolling p rest :: k -> pollers st (astack st) ->
  arrived p k (serve (say st (ECbEnd o (Ok tt))) p rest k).
Proof.
  intros J S P. rewrite S in P. inversion P as [|? ? P1 P2]; subst. inversion P2 as [|? ? P3 P4]; subst.
  apply arrived_serve; auto; [apply inv_say; auto; exact Logic.I|rewrite reached_say; reflexivity].
Qed.
Lemma arrived_raise st o b p rest k e : astack st = FCallback o b :: FPolling p rest :: k -> pollers st (astack st) ->
  arrived p k (if b then poll_end (say st (ECbEnd o (Err e))) p k (Err e) else read_error (say st (ECbEnd o (Err e))) p rest k o e).
Proof.
  intros S P. rewrite S in P. inversion P as [|? ? P1 P2]; subst. inversion P2 as [|? ? P3 P4]; subst.
  destruct b; [apply arrived_end|apply arrived_error]; assumption.
Qed.
(** Other steps leave the stack of asyncore alone. *)
Lemma pollers_step st l st' : astep st l = Some st' -> pollers st (astack st) -> astack st' = astack st -> pollers st' (astack st').
Proof.
  intros S P E. rewrite E. unfold pollers in *. eapply Forall_impl; [|exact P]. intros f. destruct f; apply (astep_objs _ _ _ _ S).
Qed.
Definition aside_label (l : alabel) : Prop := match l with ANew _ _ _ _ | ASend _ _ _ _ _ _ | AHandleClose _ _ | AClose _ _ => True | _ => False end.
Lemma kopen_stack st o op fd : astack (fst (fst (kopen st o op fd))) = astack st.
Proof. unfold kopen. destruct (o_socket op); reflexivity. Qed.
Lemma kclose_stack st s r : astack (fst (kclose st s r)) = astack st.
Proof. unfold kclose, set_open. destruct (nth_error (socks st) s) as [k|]; [|reflexivity]. destruct (k_open k); reflexivity. Qed.
Lemma aside_stack st l st' : aside_label l -> astep st l = Some st' -> astack st' = astack st.
Proof.
  destruct l as [cb i op fd|o q dst op fd r|p|o r|o r| | |]; try contradiction; intros _ S; cbn [astep] in S.
  - destruct (_ && _); [|discriminate S]. injection S as <-. unfold anew. pose proof (kopen_stack st (length (objs st)) op fd) as K.
    destruct cb as [[|]| |]; try reflexivity. destruct (kopen st (length (objs st)) op fd) as [[st1 [s|]] [u|e]]; exact K.
  - destruct (fd_free st fd); [|discriminate S]. unfold with_obj in S. destruct (auser (astack st)); [|discriminate S]. destruct (obj st o) as [m|]; [|discriminate S]. injection S as <-.
    unfold asend. pose proof (kopen_stack st o op fd) as K.
    assert (G : forall st0 s, astack (match nth_error (socks st0) s with
      | Some k => if k_open k then say (match r with Ok _ => say st0 (ESentto s q dst) | Err _ => st0 end) (Asyn.ESend o r) else say st0 (Asyn.ESend o (Err OSError))
      | None => st0 end) = astack st0) by (intros st0 s; destruct (nth_error (socks st0) s) as [k|]; [|reflexivity]; destruct (k_open k); [destruct r|]; reflexivity).
    destruct (a_role m); [apply G|]. destruct (kopen st o op fd) as [[st1 [s|]] [u|e]]; try exact K. rewrite G. exact K.
  - unfold with_obj in S. destruct (auser (astack st)); [|discriminate S]. destruct (obj st o) as [m|]; [|discriminate S]. injection S as <-. unfold ahandle_close.
    destruct (a_role m) as [s|]; [|reflexivity]. pose proof (kclose_stack st s r) as K. destruct (kclose st s r) as [st1 [u|e]]; exact K.
  - unfold with_obj in S. destruct (auser (astack st)); [|discriminate S]. destruct (obj st o) as [m|]; [|discriminate S]. injection S as <-. unfold aclose.
    set (st2 := set_obj _ o _). pose proof (kclose_stack st2 (a_socket m) r) as K. destruct (kclose st2 (a_socket m) r) as [st3 r3]. cbn in K. cbn. rewrite K.
    unfold st2. destruct (a_fileno m); reflexivity.
Qed.
(** Managers come only from the constructor. *)
Definition same_objs (st st' : astate) : Prop := length (objs st') = length (objs st) /\ forall o, obj st' o = None <-> obj st o = None.
Lemma same_objs_eq st st' : objs st' = objs st -> same_objs st st'.
Proof. intros E. unfold same_objs, obj. rewrite E. split; [reflexivity|]. intros o. tauto. Qed.
Lemma same_objs_trans a b c : same_objs a b -> same_objs b c -> same_objs a c.
Proof. intros [L1 H1] [L2 H2]. split; [congruence|]. intros o. rewrite H2. apply H1. Qed.
Lemma same_objs_set st o m : obj st o <> None -> same_objs st (set_obj st o m).
Proof.
  intros N. split; [cbn; apply upd_length|]. intros p. unfold obj, set_obj in *. cbn. rewrite nth_upd. destruct (Nat.eqb o p) eqn:E; [|tauto].
  apply Nat.eqb_eq in E. subst p. destruct (nth_error (objs st) o) as [x|]; [|contradiction]. split; [discriminate|]. intros ->. contradiction.
Qed.
Lemma shape_objs st st' : same_shape st st' -> same_objs st st'.
Proof. intros [E _]. apply same_objs_eq. exact E. Qed.
Lemma kopen_objs st o op fd : objs (fst (fst (kopen st o op fd))) = objs st.
Proof. unfold kopen. destruct (o_socket op); reflexivity. Qed.
Lemma astep_same st l st' : astep st l = Some st' -> (forall cb i op fd, l <> ANew cb i op fd) -> same_objs st st'.
Proof.
  destruct l as [cb i op fd|o q dst op fd r|p|o r|o r| |e|s x]; intros S N; cbn [astep] in S.
  - exfalso. eapply N; reflexivity.
  - destruct (fd_free st fd); [|discriminate S]. unfold with_obj in S. destruct (auser (astack st)); [|discriminate S]. destruct (obj st o) as [m|] eqn:O; [|discriminate S]. injection S as <-.
    unfold asend. pose proof (kopen_objs st o op fd) as K.
    assert (G : forall st0 s, objs (match nth_error (socks st0) s with
      | Some k => if k_open k then say (match r with Ok _ => say st0 (ESentto s q dst) | Err _ => st0 end) (Asyn.ESend o r) else say st0 (Asyn.ESend o (Err OSError))
      | None => st0 end) = objs st0) by (intros st0 s; destruct (nth_error (socks st0) s) as [k|]; [|reflexivity]; destruct (k_open k); [destruct r|]; reflexivity).
    destruct (a_role m); [apply same_objs_eq; apply G|]. destruct (kopen st o op fd) as [[st1 [s|]] r1]; cbn in K.
    + assert (H : same_objs st (set_obj st1 o (mkA (Some s) (a_socket m) (a_fileno m) (a_interface m)))).
      { eapply same_objs_trans; [apply same_objs_eq; exact K|]. apply same_objs_set. unfold obj in *. rewrite K. congruence. }
      destruct r1; (eapply same_objs_trans; [exact H|apply same_objs_eq]); [apply G|reflexivity].
    + apply same_objs_eq. destruct r1; exact K.
  - unfold with_obj in S. destruct (auser (astack st)); [|discriminate S]. destruct (obj st p) as [m|]; [|discriminate S]. injection S as <-. unfold apoll.
    destruct (forallb _ _); [|apply same_objs_eq; reflexivity]. eapply same_objs_trans; [|apply shape_objs; apply shape_serve]. apply same_objs_eq. reflexivity.
  - unfold with_obj in S. destruct (auser (astack st)); [|discriminate S]. destruct (obj st o) as [m|] eqn:O; [|discriminate S]. injection S as <-. unfold ahandle_close.
    destruct (a_role m) as [s|]; [|apply same_objs_eq; reflexivity]. pose proof (proj2 (kclose_log st s r)) as K. destruct (kclose st s r) as [st1 [u|e]]; cbn in K.
    + apply (same_objs_trans _ st1); [apply same_objs_eq; exact K|]. apply (same_objs_set st1). unfold obj in *. rewrite K. congruence.
    + apply same_objs_eq. exact K.
  - unfold with_obj in S. destruct (auser (astack st)); [|discriminate S]. destruct (obj st o) as [m|] eqn:O; [|discriminate S]. injection S as <-. unfold aclose.
    set (st1 := match a_fileno m with Some fd => set_map st (map_del (smap st) fd) | None => st end).
    assert (E1 : objs st1 = objs st) by (unfold st1; destruct (a_fileno m); reflexivity).
    set (st2 := set_obj st1 o _). pose proof (proj2 (kclose_log st2 (a_socket m) r)) as K. destruct (kclose st2 (a_socket m) r) as [st3 r3]. cbn in K.
    apply (same_objs_trans _ st2); [|apply same_objs_eq; exact K]. apply (same_objs_trans _ st1); [apply same_objs_eq; exact E1|]. apply same_objs_set. unfold obj in *. rewrite E1. congruence.
  - destruct (astack st) as [|[| |] [|[| |] k]]; try discriminate S. injection S as <-. eapply same_objs_trans; [|apply shape_objs; apply shape_serve]. apply same_objs_eq. reflexivity.
  - destruct (astack st) as [|[| |] [|[| |] k]]; try discriminate S. injection S as <-. destruct in_handle_error; [apply same_objs_eq; reflexivity|].
    eapply same_objs_trans; [|apply shape_objs; apply shape_read_error]. apply same_objs_eq. reflexivity.
  - destruct (nth_error (socks st) s) as [ks|]; [|discriminate S]. destruct (k_open ks); [|discriminate S].
    assert (Q : same_objs st (set_queue (say st (EArrive s x)) s (k_queue ks ++ [x]))) by (apply same_objs_eq; rewrite queue_objs; reflexivity).
    destruct (astack st) as [|[| |o s'] [|[| |] k]]; try (injection S as <-; exact Q).
    destruct (Nat.eqb s s'); injection S as <-; [|exact Q]. eapply same_objs_trans; [|apply shape_objs; apply shape_got]. apply same_objs_eq. reflexivity.
Qed.
Lemma anew_objs st i op fd st' : astep st (ANew (CbPair true) i op fd) = Some st' -> exists x, objs st' = objs st ++ [x] /\
  (x = None <-> match rev (alog st') with ENew _ (Ok _) :: _ => False | _ => True end).
Proof.
  intros S. cbn [astep] in S. destruct (_ && _); [|discriminate S]. injection S as <-. unfold anew. pose proof (kopen_objs st (length (objs st)) op fd) as K.
  destruct (kopen st (length (objs st)) op fd) as [[st1 [s|]] [u|e]]; cbn in K; cbn; rewrite K, rev_app_distr; eexists; (split; [reflexivity|]); cbn; split; try tauto; try discriminate; try contradiction.
Qed.

Record sinv (w : world) : Prop := {
  s_atop : atop (ctl w) (astack (asyn w));
  s_exist : exist_all (asyn w) (ctl w);
  s_pollers : pollers (asyn w) (astack (asyn w));
  s_len : length (mans w) = length (objs (asyn w));
  s_same : forall o, man_of w o = None <-> obj (asyn w) o = None }.
Lemma exist_step A l A' k : astep A l = Some A' -> exist_all A k -> exist_all A' k.
Proof. intros S. apply Forall_impl. intros f H o M. eapply astep_objs; eauto. Qed.
Lemma aside_sinv w l w' : sinv w -> aside_label l -> (forall cb i op fd, l <> ANew cb i op fd) -> aside w l = Some w' -> sinv w'.
Proof.
  intros [A B C D E] L N S. unfold aside in S. destruct (astep (asyn w) l) as [A'|] eqn:St; [|discriminate S]. injection S as <-.
  pose proof (aside_stack _ _ _ L St) as K. destruct (astep_same _ _ _ St N) as [H1 H2].
  constructor; cbn [ctl asyn mans]; [rewrite K; exact A|eapply exist_step; eauto|eapply pollers_step; eauto|congruence|]. intros o. rewrite H2. exact (E o).
Qed.
Lemma asyncore_sinv w l k p a w' : (forall A, astep (asyn w) l = Some A -> arrived p a A) -> (forall cb i op fd, l <> ANew cb i op fd) -> sinv w -> exist_all (asyn w) k -> polls p k a ->
  asyncore w l k = Some w' -> sinv w'.
Proof.
  intros R N [A B C D E] X P S. unfold asyncore in S. destruct (astep (asyn w) l) as [A'|] eqn:St; [|discriminate S]. injection S as <-.
  destruct (R A' eq_refl) as (R1 & R2 & R3). destruct (astep_same _ _ _ St N) as [H1 H2].
  constructor; cbn [ctl asyn mans]; [apply R1; exact P|constructor; [exact R2|eapply exist_step; eauto]|exact R3|congruence|]. intros o. rewrite H2. exact (E o).
Qed.
Lemma acts_sinv w o sys m es k : sinv w -> man_of w o <> None -> atop k (astack (asyn w)) -> exist_all (asyn w) k -> sinv (acts w o sys m es k).
Proof.
  intros [A B C D E] M T X. constructor; cbn [acts ctl asyn mans]; [exact T|exact X|exact C|rewrite upd_length; exact D|].
  intros p. unfold acts. rewrite man_upd by exact M. destruct (Nat.eqb o p) eqn:Q; [|apply E]. apply Nat.eqb_eq in Q. subst p. split; [discriminate|]. intros Y. apply E in Y. contradiction.
Qed.
Lemma ctl_sinv w k : sinv w -> atop k (astack (asyn w)) -> exist_all (asyn w) k -> sinv (mkWorld (asyn w) (mans w) k (wlog w)).
Proof. intros [A B C D E] T X. constructor; cbn [ctl asyn mans]; auto. Qed.
Lemma nothing_sinv w o sys m es k : sinv w -> man_of w o <> None -> below k (astack (asyn w)) -> exist_all (asyn w) k -> sinv (nothing_queued w o sys m es k).
Proof.
  intros I M T X. unfold nothing_queued. assert (O : obj (asyn w) o <> None) by (intros Y; apply (s_same _ I) in Y; contradiction).
  assert (Xr : exist_all (asyn w) (WRun o Polling :: k)) by (constructor; [intros p Q; injection Q as <-; exact O|exact X]).
  destruct (queueEmpty sys) as [[|n]|]; apply acts_sinv; auto.
  - apply top_user. exact T.
  - apply top_user. apply below_empty. exact T.
  - constructor; [intros p Q; injection Q as <-; exact O|exact Xr].
  - apply top_run. exact T.
Qed.
Lemma fails_sinv w o sys m e es k : sinv w -> man_of w o <> None -> below k (astack (asyn w)) -> exist_all (asyn w) k -> sinv (run_fails w o sys m e es k).
Proof.
  intros I M T X. assert (R : run_fails w o sys m e es k = nothing_queued w o sys m es k \/ run_fails w o sys m e es k = acts w o sys m (es ++ [EResult (Err e)]) k) by (destruct e; auto).
  destruct R as [->| ->]; [apply nothing_sinv; assumption|apply acts_sinv; auto]. apply top_user. exact T.
Qed.
Lemma poll_sinv w o k w' : winv w -> sinv w -> auser (astack (asyn w)) = true -> exist_all (asyn w) k -> polls o k (astack (asyn w)) -> asyncore w (APoll o) k = Some w' -> sinv w'.
Proof.
  intros I J U X P S. destruct (w_asyn _ I) as [atr Ea]. destruct (aexec_inv _ _ Ea) as [V _].
  eapply (asyncore_sinv w (APoll o) k o (astack (asyn w))); eauto; [|discriminate].
  intros A E. cbn [astep] in E. unfold with_obj in E. rewrite U in E. destruct (obj (asyn w) o) eqn:O; [|discriminate E]. injection E as <-. apply arrived_poll; [exact V|congruence|exact (s_pollers _ J)].
Qed.
Lemma received_sinv w o b r p rest k a w' : winv w -> sinv w -> astack (asyn w) = FCallback o b :: FPolling p rest :: a -> exist_all (asyn w) k -> polls p k a -> received_by w o r k = Some w' -> sinv w'.
Proof.
  intros I J K X P S. unfold received_by in S. destruct (w_asyn _ I) as [atr Ea]. destruct (aexec_inv _ _ Ea) as [V _].
  eapply (asyncore_sinv w _ k p a); eauto; [|destruct r; discriminate].
  intros A E. destruct r as [u|e]; cbn [astep] in E; rewrite K in E; injection E as <-.
  - eapply arrived_return; [exact V|exact K|exact (s_pollers _ J)].
  - eapply arrived_raise; [exact K|exact (s_pollers _ J)].
Qed.
Lemma received_acts w o sys m es b r p rest k a w' : winv w -> sinv w -> man_of w o <> None -> astack (asyn w) = FCallback o b :: FPolling p rest :: a -> exist_all (asyn w) k -> polls p k a ->
  received_by (acts w o sys m es (ctl w)) o r k = Some w' -> sinv w'.
Proof.
  intros I J M K X P S. assert (J' : sinv (acts w o sys m es (ctl w))) by (apply acts_sinv; auto; [exact (s_atop _ J)|exact (s_exist _ J)]).
  unfold received_by in S. destruct (w_asyn _ I) as [atr Ea]. destruct (aexec_inv _ _ Ea) as [V _].
  eapply (asyncore_sinv _ _ k p a); eauto; [|destruct r; discriminate].
  intros A E. cbn [acts asyn] in E. destruct r as [u|e]; cbn [astep] in E; rewrite K in E; injection E as <-.
  - eapply arrived_return; [exact V|exact K|exact (s_pollers _ J)].
  - eapply arrived_raise; [exact K|exact (s_pollers _ J)].
Qed.
Lemma exist_tail A f k : exist_all A (f :: k) -> exist_all A k.
Proof. intros H. inversion H. assumption. Qed.
Lemma exist_cons A f k o : mentions f = Some o -> obj A o <> None -> exist_all A k -> exist_all A (f :: k).
Proof. intros M O X. constructor; [|exact X]. intros p Q. rewrite M in Q. injection Q as <-. exact O. Qed.
Lemma polls_auser p k a : polls p k a -> auser a = true.
Proof. intros H. destruct H; eapply below_auser; eauto. Qed.
Lemma atop_blocked k o s a : atop k (FBlocked o s :: a) -> exists k', k = WWait :: k'.
Proof.
  intros H. inversion H; subst; try (match goal with H : below _ _ |- _ => apply below_auser in H; discriminate H | H : polls _ _ _ |- _ => apply polls_auser in H; discriminate H end).
  eauto.
Qed.
Lemma got_reached st p rest k o s x : reached (got st p rest k o s x) <> WWait.
Proof.
  unfold got. destruct x as [[d src]|e]; [rewrite reached_say; discriminate|]. unfold read_error, poll_end. destruct e; rewrite reached_say; discriminate.
Qed.
Theorem wstep_sinv w l w' : winv w -> sinv w -> wstep w l = Some w' -> sinv w'.
Proof.
  intros I J S. pose proof (s_atop _ J) as T. pose proof (s_exist _ J) as X.
  assert (Ex : forall o, man_of w o <> None -> obj (asyn w) o <> None) by (intros o M Y; apply (s_same _ J) in Y; contradiction).
  destruct l as [f imp qe tc i op fd|o a|o|o|o r|o r| |e|s x|op fd r|depth]; cbn [wstep] in S.
  - destruct (user_code (ctl w)) eqn:U; [|discriminate S]. destruct (astep (asyn w) (ANew (CbPair true) i op fd)) as [A'|] eqn:E; [|discriminate S]. injection S as <-.
    pose proof (aside_stack _ (ANew (CbPair true) i op fd) _ Logic.I E) as K. destruct (anew_objs _ _ _ _ _ E) as (x & O & N).
    constructor; cbn [ctl asyn mans]; [rewrite K; exact T|eapply exist_step; eauto|eapply pollers_step; eauto; exact (s_pollers _ J)|rewrite O, !app_length, (s_len _ J); reflexivity|].
    intros o. pose proof (s_same _ J o) as Sm. unfold man_of, obj in *. cbn [mans]. rewrite O.
    pose proof (s_len _ J) as Ln. destruct (Nat.lt_trichotomy o (length (mans w))) as [L|[L|L]].
    + rewrite !nth_error_app1 by lia. exact Sm.
    + subst o. rewrite nth_error_app2, Nat.sub_diag by lia. rewrite Ln, nth_error_app2, Nat.sub_diag by lia. cbn. rewrite N.
      destruct (rev (alog A')) as [|[| y [|]| | | | | | | | |] ?]; split; try tauto; discriminate.
    + rewrite !nth_error_app2 by lia. rewrite Ln in *. destruct (o - length (objs (asyn w)))%nat eqn:Z; [lia|]. cbn. destruct n; tauto.
  - destruct (user_code (ctl w)) eqn:U; [|discriminate S]. destruct (man_of w o) as [[sys m]|] eqn:M; [|discriminate S].
    destruct (do_call (flav sys) a m) as [m' r]. injection S as <-. apply acts_sinv; auto. congruence.
  - destruct (user_code (ctl w)) eqn:U; [|discriminate S]. pose proof (atop_user _ _ T U) as B. eapply poll_sinv; eauto; [eapply below_auser; eauto|apply polls_user; exact B].
  - destruct (user_code (ctl w)) eqn:U; [|discriminate S]. destruct (man_of w o) as [[sys m]|] eqn:M; [|discriminate S]. injection S as <-. apply ctl_sinv; auto.
    + apply top_run. apply atop_user; assumption.
    + eapply exist_cons; [reflexivity|apply Ex; congruence|exact X].
  - destruct (user_code (ctl w)); [|discriminate S]. eapply aside_sinv; eauto; [exact Logic.I|discriminate].
  - destruct (user_code (ctl w)); [|discriminate S]. eapply aside_sinv; eauto; [exact Logic.I|discriminate].
  - destruct (ctl w) as [|[o id|o|o| | | | |] k] eqn:C; try discriminate S; pose proof (exist_tail _ _ _ X) as Xk.
    + destruct (man_of w o) as [[sys m]|] eqn:M; [|discriminate S]. destruct (after_response (flav sys) m id (Ok tt)) as [m' r]. rewrite <- C in S.
      inversion T as [? ? B E1 E2| | | | |]; subst. inversion B; subst. eapply received_acts; eauto; congruence.
    + inversion T as [? ? B E1 E2| | | | |]; subst. inversion B; subst. eapply (received_sinv w o); eauto; congruence.
    + injection S as <-. apply ctl_sinv; auto. inversion T as [? ? B E1 E2| | | | |]; subst. inversion B; subst. apply top_run. assumption.
  - destruct (ctl w) as [|[o id|o|o| | | | |] k] eqn:C; try discriminate S; pose proof (exist_tail _ _ _ X) as Xk.
    + destruct (man_of w o) as [[sys m]|] eqn:M; [|discriminate S]. destruct (after_response (flav sys) m id (Err e)) as [m' r]. rewrite <- C in S.
      inversion T as [? ? B E1 E2| | | | |]; subst. inversion B; subst. eapply received_acts; eauto; congruence.
    + destruct (man_of w o) as [[sys m]|] eqn:M; [|discriminate S]. inversion T as [? ? B E1 E2| | | | |]; subst. inversion B; subst. eapply (received_sinv w o); eauto; congruence.
    + inversion T as [? ? B E1 E2| | | | |]; subst. inversion B; subst. destruct (man_of w o) as [[sys m]|] eqn:M; [|discriminate S]. injection S as <-.
      apply acts_sinv; auto; [congruence|apply top_user; assumption|eapply exist_tail; exact Xk].
  - assert (G : forall w1, aside w (AArrive s x) = Some w1 -> (forall o s' p rest a, astack (asyn w) <> FBlocked o s' :: FPolling p rest :: a \/ s <> s') -> sinv w1 /\ astack (asyn w1) = astack (asyn w)).
    { intros w1 E NB. unfold aside in E. destruct (astep (asyn w) (AArrive s x)) as [A'|] eqn:St; [|discriminate E]. injection E as <-.
      assert (K : astack A' = astack (asyn w)).
      { cbn [astep] in St. destruct (nth_error (socks (asyn w)) s) as [ks|]; [|discriminate St]. destruct (k_open ks); [|discriminate St].
        assert (Q : astack (set_queue (say (asyn w) (EArrive s x)) s (k_queue ks ++ [x])) = astack (asyn w)) by (unfold set_queue; destruct (nth_error _ s); reflexivity).
        destruct (astack (asyn w)) as [|[| |o s'] [|[p rest| |] k]] eqn:Y; try (injection St as <-; exact Q).
        destruct (Nat.eqb s s') eqn:Z; [|injection St as <-; exact Q]. apply Nat.eqb_eq in Z. destruct (NB o s' p rest k); congruence. }
      destruct (astep_same _ _ _ St) as [H1 H2]; [discriminate|]. split; [|exact K]. destruct J as [J1 J2 J3 J4 J5].
      constructor; cbn [ctl asyn mans]; [rewrite K; exact T|eapply exist_step; eauto|eapply pollers_step; eauto|congruence|]. intros o. rewrite H2. exact (J5 o). }
    assert (NW : (forall k, ctl w <> WWait :: k) -> forall o s' p rest a, astack (asyn w) <> FBlocked o s' :: FPolling p rest :: a \/ s <> s').
    { intros NW o s' p rest a. left. intros Y. rewrite Y in T. destruct (atop_blocked _ _ _ _ T) as [k' E]. exact (NW _ E). }
    destruct (ctl w) as [|f k] eqn:C; [eapply G; [exact S|apply NW; discriminate]|].
    assert (W : f = WWait \/ f <> WWait) by (destruct f; auto; right; discriminate). destruct W as [->|W].
    2:{ eapply (G w'); [destruct f; try exact S; contradiction|]. apply NW. intros k0 E. injection E as -> _. contradiction. }
    destruct (aside w (AArrive s x)) as [w1|] eqn:E; [|discriminate S]. injection S as <-.
    inversion T as [? ? B E1 E2| | | | |o s' ? ? p rest P]; subst; [apply below_user in B; discriminate B|].
    destruct (Nat.eq_dec s s') as [->|NE].
    + unfold aside in E. destruct (astep (asyn w) (AArrive s' x)) as [A'|] eqn:St; [|discriminate E]. injection E as <-. cbn [asyn mans ctl wlog].
      pose proof (s_pollers _ J) as Po. match goal with H : _ = astack (asyn w) |- _ => rename H into Ks end. rewrite <- Ks in Po. inversion Po as [|? ? P1 P2]; subst. inversion P2 as [|? ? P3 P4]; subst.
      assert (Ar : arrived p a A').
      { cbn [astep] in St. rewrite <- Ks, Nat.eqb_refl in St. destruct (nth_error (socks (asyn w)) s') as [ks|]; [|discriminate St]. destruct (k_open ks); [|discriminate St]. injection St as <-.
        apply arrived_got; assumption. }
      destruct Ar as (R1 & R2 & R3). destruct (astep_same _ _ _ St) as [H1 H2]; [discriminate|].
      assert (Rn : reached A' <> WWait).
      { cbn [astep] in St. rewrite <- Ks, Nat.eqb_refl in St. destruct (nth_error (socks (asyn w)) s') as [ks|]; [|discriminate St]. destruct (k_open ks); [|discriminate St]. injection St as <-. apply got_reached. }
      specialize (R1 _ P). assert (Nb : forall q t r, astack A' <> FBlocked q t :: r).
      { intros q t r Y. rewrite Y in R1. destruct (atop_blocked _ _ _ _ R1) as [k' E]. injection E as E _. contradiction. }
      assert (Fin : sinv (mkWorld A' (mans w) (reached A' :: k) (wlog w ++ fresh (asyn w) A'))).
      { destruct J as [J1 J2 J3 J4 J5]. constructor; cbn [ctl asyn mans]; [exact R1|constructor; [exact R2|eapply exist_step; [exact St|eapply exist_tail; exact X]]|exact R3|congruence|]. intros q. rewrite H2. exact (J5 q). }
      destruct (astack A') as [|[| |q t] r]; try exact Fin. exfalso. exact (Nb q t r eq_refl).
    + destruct (G w1 eq_refl) as [G1 G2]; [intros o0 s0 p0 r0 a0; destruct (Nat.eq_dec s s0) as [->|]; auto; left; intros Y; congruence|].
      rewrite G2. match goal with H : FBlocked _ _ :: _ = _ |- _ => rewrite <- H end. exact G1.
  - destruct (ctl w) as [|[| | |o [|]| | | |] k] eqn:C; try discriminate S. destruct (man_of w o) as [[sys m]|] eqn:M; [|discriminate S].
    assert (Mn : man_of w o <> None) by congruence. pose proof (exist_tail _ _ _ X) as Xk.
    assert (B : below k (astack (asyn w))) by (inversion T as [? ? B E1 E2|? ? ? ? B| | | |]; subst; [apply below_user in B; discriminate B|exact B]).
    destruct (outbound m) as [|[om dst] q]; [injection S as <-; apply nothing_sinv; assumption|].
    destruct (match om with None => Err AttributeError | Some msg => snd (message_encode msg) end) as [os|e]; [|injection S as <-; apply fails_sinv; assumption].
    destruct (aside w (ASend o os dst op fd r)) as [w1|] eqn:As; [|discriminate S].
    assert (J1 : sinv w1) by (exact (aside_sinv w (ASend o os dst op fd r) w1 J Logic.I ltac:(discriminate) As)).
    unfold aside in As. destruct (astep (asyn w) (ASend o os dst op fd r)) as [A'|] eqn:St; [|discriminate As]. injection As as <-. cbn [asyn] in S.
    pose proof (aside_stack _ (ASend o os dst op fd r) _ Logic.I St) as K. rewrite <- K in B. pose proof (exist_step _ _ _ _ St Xk) as Xk'. pose proof (exist_step _ _ _ _ St X) as X'.
    destruct (rev (alog A')) as [|[| | |y [u|e]| | | | | | |] ?]; try discriminate S; injection S as <-.
    + apply acts_sinv; auto; [apply top_run; exact B|]. eapply exist_cons; [reflexivity|eapply astep_objs; [exact St|apply Ex; exact Mn]|exact Xk'].
    + apply fails_sinv; auto.
  - destruct (ctl w) as [|[| | |o [|]|o d src|o e|p r|] k] eqn:C; try discriminate S; pose proof (exist_tail _ _ _ X) as Xk.
    + assert (B : below k (astack (asyn w))) by (inversion T as [? ? B E1 E2|? ? ? ? B| | | |]; subst; [apply below_user in B; discriminate B|exact B]).
      eapply (poll_sinv w o (WRun o Polling :: k)); eauto; [eapply below_auser; eauto|apply polls_run; exact B].
    + destruct (man_of w o) as [[sys m]|] eqn:M; [|discriminate S]. assert (Mn : man_of w o <> None) by congruence.
      inversion T as [? ? B E1 E2| |? ? ? ? a p rest P E1 E2| | |]; subst; [apply below_user in B; discriminate B|]. symmetry in E2.
      destruct (receiveData sys m depth (DStr d)) as [[r|id n|n] [msg|]]; try discriminate S.
      * eapply (received_sinv w o false r); eauto.
      * eapply (received_sinv w o false r); eauto.
      * injection S as <-. apply acts_sinv; auto; [rewrite E2; apply top_user; apply below_resp; exact P|]. eapply exist_cons; [reflexivity|apply Ex; exact Mn|exact Xk].
      * injection S as <-. apply acts_sinv; auto; [rewrite E2; apply top_user; apply below_trap; exact P|]. eapply exist_cons; [reflexivity|apply Ex; exact Mn|exact Xk].
    + inversion T as [? ? B E1 E2| | |? ? ? a p rest P E1 E2| |]; subst; [apply below_user in B; discriminate B|]. symmetry in E2. eapply (received_sinv w o true); eauto.
    + inversion T as [? ? B E1 E2| | | |? ? ? ? P|]; subst; [apply below_user in B; discriminate B|].
      assert (G : below k (astack (asyn w)) -> match man_of w p with None => None | Some (sys, m) => Some (acts w p sys m [EResult r] k) end = Some w' -> sinv w').
      { intros B S'. destruct (man_of w p) as [[sys m]|] eqn:M; [|discriminate S']. injection S' as <-. apply acts_sinv; auto; [congruence|apply top_user; exact B]. }
      inversion P as [? k1 ? B|? ? ? B]; subst.
      2:{ apply G; [exact B|]. destruct k as [|[| | |o ph| | | |] k]; try exact S. apply below_user in B. discriminate B. }
      destruct (man_of w p) as [[sys m]|] eqn:M; [|discriminate S]. assert (Mn : man_of w p <> None) by congruence. pose proof (exist_tail _ _ _ Xk) as Xk1.
      assert (R : forall e, Some (acts w p sys m [EResult (Err e)] k1) = Some w' -> sinv w') by (intros e Y; injection Y as <-; apply acts_sinv; auto; apply top_user; exact B).
      destruct r as [u|e].
      * assert (w' = mkWorld (asyn w) (mans w) (WRun p Sending :: k1) (wlog w)) as -> by (destruct (flav sys); congruence). apply ctl_sinv; [exact J|apply top_run; exact B|eapply exist_cons; [reflexivity|apply Ex; exact Mn|exact Xk1]].
      * destruct (flav sys); try (apply (R e); destruct e; exact S).
        assert (N : e = QueueEmpty \/ e <> QueueEmpty) by (destruct e; auto; right; discriminate). destruct N as [->|N]; [|apply (R e); destruct e; try exact S; contradiction].
        injection S as <-. apply nothing_sinv; auto.
Qed.
Lemma sinv_init : sinv winit.
Proof.
  constructor; cbn; try (constructor; fail); auto; [apply top_user; constructor|]. intros o. unfold man_of, obj. cbn. destruct o; tauto.
Qed.
Theorem wexec_sinv tr w : wexec tr = Some w -> sinv w.
Proof.
  unfold wexec. assert (G : forall tr w w', winv w -> sinv w -> wsteps w tr = Some w' -> sinv w').
  { induction tr0 as [|l tr0 IH]; cbn [wsteps]; intros u w' I J S; [injection S as <-; exact J|]. destruct (wstep u l) eqn:E; [|discriminate S].
    eapply IH; [eapply wstep_inv; eauto|eapply wstep_sinv; eauto|exact S]. }
  apply G; [exact winv_init|exact sinv_init].
Qed.
