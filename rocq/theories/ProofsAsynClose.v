(** * Proofs about errors, close() and handle_close() with several managers. *)
From Coq Require Import ZArith List Bool Lia Arith.
From Verif Require Import PyBase Role Asyn SpecAsyn ProofsAsyn ProofsAsynPoll.
Import ListNotations.
Open Scope Z_scope.

(** ** poll() after some callbacks have returned *)
Lemma serve_prefix p k w : forall es st l, sound st -> incl es (smap st) -> NoDup (map fst es) -> flat_map (first_of st) es = map as_waiting l ++ w ->
  exists st1 es1, asteps (serve st p (filter (reported st) (map fst es)) k) (repeat AReturn (length l)) = Some (serve st1 p (filter (reported st1) (map fst es1)) k) /\
    same_shape st st1 /\ alog st1 = alog st ++ flat_map served l /\ incl es1 (smap st1) /\ NoDup (map fst es1) /\ flat_map (first_of st1) es1 = w.
Proof.
  induction es as [|[fd o] es IH]; intros st l S In1 N E.
  - destruct l; [|discriminate]. exists st, []. cbn. rewrite app_nil_r. repeat split; try assumption.
  - assert (I : In (fd, o) (smap st)) by (apply In1; left; reflexivity). assert (In2 : incl es (smap st)) by (intros z Z; apply In1; right; exact Z).
    destruct l as [|v l].
    { exists st, ((fd, o) :: es). cbn [length repeat asteps]. rewrite app_nil_r. repeat split; assumption. }
    inversion N as [|? ? N1 N2]; subst. cbn [map fst filter flat_map] in *. destruct (first_cases st fd o S I) as [[F R]|(m & s & ks & x & q & F & R & O & Ro & Ns & Op & Q)]; rewrite F in E; rewrite R; cbn [app] in E.
    + apply (IH st (v :: l) S In2 N2 E).
    + injection E as Eo Es Ex E. subst o s x.
      cbn [serve]. rewrite (map_get_nodup _ _ _ (h_nodup _ S) I).
      destruct (serve_one st p (filter (reported st) (map fst es)) k fd (v_mgr v) m (v_sock v) ks (v_data v) (v_src v) q S I O Ro Ns Op Q) as (st1 & E1 & Sh & St & Lg & Q1 & Q2).
      rewrite E1. cbn [length repeat asteps astep]. rewrite St. set (st2 := say st1 (ECbEnd (v_mgr v) (Ok tt))).
      assert (Sh2 : same_shape st st2) by exact Sh. assert (S2 : sound st2) by (eapply sound_shape; [exact S|assumption]).
      assert (Q2' : forall t, t <> v_sock v -> queued st2 t = queued st t) by exact Q2.
      destruct (rest_same st st2 fd (v_mgr v) (v_sock v) es S S2 Sh2 I (ex_intro _ m (conj O Ro)) Q2' In2 N1) as [R1 R2].
      rewrite <- R1. destruct (IH st2 l S2) as (st' & es1 & A & B & C & D & H & J).
      { destruct Sh2 as (_ & M & _). rewrite M. exact In2. } { exact N2. } { rewrite R2. exact E. }
      exists st', es1. split; [exact A|]. split; [eapply same_trans; eassumption|]. split; [|auto]. rewrite C. unfold st2. cbn [say alog]. rewrite Lg. cbn [flat_map]. unfold served at 2, handed. rewrite <- !app_assoc. reflexivity.
Qed.
(** The next one to serve. *)
Lemma serve_next p k o s x w : forall es st, sound st -> incl es (smap st) -> NoDup (map fst es) -> flat_map (first_of st) es = (o, s, x) :: w ->
  exists fd es1 m ks q, serve st p (filter (reported st) (map fst es)) k = got (set_queue st s q) p (filter (reported st) (map fst es1)) k o s x /\
    obj st o = Some m /\ a_role m = Some s /\ nth_error (socks st) s = Some ks /\ k_queue ks = x :: q /\
    In (fd, o) (smap st) /\ incl es1 (smap st) /\ NoDup (map fst es1) /\ ~ In fd (map fst es1) /\ flat_map (first_of st) es1 = w.
Proof.
  induction es as [|[fd y] es IH]; intros st S In1 N E; [discriminate|].
  assert (I : In (fd, y) (smap st)) by (apply In1; left; reflexivity). assert (In2 : incl es (smap st)) by (intros z Z; apply In1; right; exact Z).
  inversion N as [|? ? N1 N2]; subst. cbn [map fst filter flat_map] in *. destruct (first_cases st fd y S I) as [[F R]|(m & t & ks & z & q & F & R & O & Ro & Ns & Op & Q)]; rewrite F in E; rewrite R; cbn [app] in E.
  - apply IH; assumption.
  - injection E as -> -> -> E. exists fd, es, m, ks, q. cbn [serve]. rewrite (map_get_nodup _ _ _ (h_nodup _ S) I). unfold handle_read. rewrite O, Ro, Ns, Op, Q. repeat split; assumption.
Qed.
Lemma rest_queue st fd o s m ks q es : sound st -> In (fd, o) (smap st) -> obj st o = Some m -> a_role m = Some s -> nth_error (socks st) s = Some ks -> incl es (smap st) -> ~ In fd (map fst es) ->
  sound (set_queue st s q) /\ filter (reported (set_queue st s q)) (map fst es) = filter (reported st) (map fst es) /\ flat_map (first_of (set_queue st s q)) es = flat_map (first_of st) es.
Proof.
  intros S I O R Ns In1 N. assert (Sh : same_shape st (set_queue st s q)) by apply shape_queue. assert (S1 : sound (set_queue st s q)) by (eapply sound_shape; [exact S|exact Sh]).
  split; [exact S1|]. eapply rest_same; try eassumption; [eauto|]. intros t T. unfold queued, set_queue. rewrite Ns. cbn [socks]. rewrite nth_upd. destruct (Nat.eqb_spec s t); [congruence|reflexivity].
Qed.
Lemma waiting_rest st es : incl es (smap st) -> incl (flat_map (first_of st) es) (waiting st).
Proof. intros I z Z. rewrite waiting_eq. apply in_flat_map in Z as (e & J & Z). apply in_flat_map. exists e. auto. Qed.
(** recvfrom raises: poll() ends with the exception. *)
Theorem poll_error tr st p l o s e w : aexec tr = Some st -> never_handle_close tr -> auser (astack st) = true -> obj st p <> None -> waiting st = map as_waiting l ++ (o, s, Err e) :: w -> e <> ValueError ->
  exists st', asteps st (APoll p :: repeat AReturn (length l)) = Some st' /\ astack st' = astack st /\
    alog st' = alog st ++ EPoll p :: flat_map served l ++ [ERecv s (Err e); EPollEnd p (Err e)] /\ incl w (waiting st').
Proof.
  intros E NH U O W NE. pose proof (aexec_sound tr NH st E) as S. cbn [asteps astep]. unfold with_obj. rewrite U. destruct (obj st p) as [m|]; [|contradiction].
  unfold apoll. rewrite (all_open st S). rewrite <- (reported_say st (EPoll p)).
  assert (S0 : sound (say st (EPoll p))) by exact (sound_shape _ _ S (shape_say _ _)).
  destruct (serve_prefix p (astack st) ((o, s, Err e) :: w) (smap st) (say st (EPoll p)) l S0) as (st1 & es1 & A & Sh & L & In1 & N1 & E1); [apply incl_refl|apply (h_nodup _ S)|exact W|].
  assert (S1 : sound st1) by (eapply sound_shape; [exact S0|exact Sh]).
  destruct (serve_next p (astack st) o s (Err e) w es1 st1 S1 In1 N1 E1) as (fd & es2 & m1 & ks & q & B & O1 & R1 & K1 & Q1 & I1 & In2 & N2 & F2 & E2).
  rewrite B in A. eexists. split; [exact A|].
  destruct (rest_queue st1 fd o s m1 ks q es2 S1 I1 O1 R1 K1 In2 F2) as (S2 & _ & E3).
  assert (X : got (set_queue st1 s q) p (filter (reported st1) (map fst es2)) (astack st) o s (Err e) = poll_end (say (set_queue st1 s q) (ERecv s (Err e))) p (astack st) (Err e)) by (destruct e; try reflexivity; contradiction).
  rewrite X. split; [reflexivity|]. split.
  - unfold set_queue. rewrite K1. cbn [poll_end say set_stack alog]. rewrite L. cbn [say alog]. repeat (rewrite <- !app_assoc; cbn [app]). reflexivity.
  - rewrite <- E2, <- E3. change (waiting (poll_end (say (set_queue st1 s q) (ERecv s (Err e))) p (astack st) (Err e))) with (waiting (set_queue st1 s q)).
    apply waiting_rest. pose proof (shape_queue st1 s q) as (_ & M & _). rewrite M. exact In2.
Qed.
(** A callback raises a ValueError: it is called again, with the exception, and the others are served. *)
Theorem poll_valueerror tr st p l1 v l2 : aexec tr = Some st -> never_handle_close tr -> auser (astack st) = true -> obj st p <> None -> waiting st = map as_waiting (l1 ++ v :: l2) ->
  exists st', asteps st (APoll p :: repeat AReturn (length l1) ++ ARaise ValueError :: AReturn :: repeat AReturn (length l2)) = Some st' /\ astack st' = astack st /\
    alog st' = alog st ++ EPoll p :: flat_map served l1 ++ handed v ++ [ECbEnd (v_mgr v) (Err ValueError); ECb (v_mgr v) (Exc ValueError); ECbEnd (v_mgr v) (Ok tt)] ++ flat_map served l2 ++ [EPollEnd p (Ok tt)].
Proof.
  intros E NH U O W. pose proof (aexec_sound tr NH st E) as S. cbn [asteps astep]. unfold with_obj. rewrite U. destruct (obj st p) as [m|]; [|contradiction].
  unfold apoll. rewrite (all_open st S). rewrite <- (reported_say st (EPoll p)).
  assert (S0 : sound (say st (EPoll p))) by exact (sound_shape _ _ S (shape_say _ _)). rewrite map_app in W. cbn [map] in W.
  destruct (serve_prefix p (astack st) (as_waiting v :: map as_waiting l2) (smap st) (say st (EPoll p)) l1 S0) as (st1 & es1 & A & Sh & L & In1 & N1 & E1); [apply incl_refl|apply (h_nodup _ S)|exact W|].
  assert (S1 : sound st1) by (eapply sound_shape; [exact S0|exact Sh]).
  destruct (serve_next p (astack st) _ _ _ _ es1 st1 S1 In1 N1 E1) as (fd & es2 & m1 & ks & q & B & O1 & R1 & K1 & Q1 & I1 & In2 & N2 & F2 & E2).
  rewrite asteps_app, A, B. cbn [asteps]. unfold got. cbn [astep say set_stack astack]. cbn [asteps astep read_error say set_stack astack].
  destruct (rest_queue st1 fd _ _ m1 ks q es2 S1 I1 O1 R1 K1 In2 F2) as (S2 & R2 & E3).
  match goal with |- context [serve ?x p _ _] => set (st3 := x) end.
  assert (Sh3 : same_shape (set_queue st1 (v_sock v) q) st3) by repeat split.
  assert (S3 : sound st3) by (eapply sound_shape; [exact S2|exact Sh3]).
  assert (X : reported st3 = reported (set_queue st1 (v_sock v) q)) by reflexivity. assert (Y : first_of st3 = first_of (set_queue st1 (v_sock v) q)) by reflexivity.
  assert (Al : alog st3 = alog st1 ++ handed v ++ [ECbEnd (v_mgr v) (Err ValueError); ECb (v_mgr v) (Exc ValueError); ECbEnd (v_mgr v) (Ok tt)]).
  { unfold st3, set_queue. rewrite K1. cbn [say set_stack alog]. unfold handed. repeat (rewrite <- !app_assoc; cbn [app]). reflexivity. }
  assert (M3 : smap st3 = smap st1) by (pose proof (shape_queue st1 (v_sock v) q) as (_ & M & _); exact M).
  clearbody st3. rewrite <- R2, <- X.
  destruct (serve_all p (astack st) es2 st3 l2 S3) as (st' & C1 & C2 & C3 & _); [rewrite M3; exact In2|exact N2|rewrite Y, E3; exact E2|].
  exists st'. split; [exact C1|]. split; [exact C2|]. rewrite C3, Al, L. cbn [say alog]. repeat (rewrite <- !app_assoc; cbn [app]). reflexivity.
Qed.

(** ** close() *)
Lemma obj_set st o m y : obj st o <> None -> obj (set_obj st o m) y = if Nat.eqb o y then Some m else obj st y.
Proof.
  intros O. unfold obj, set_obj in *. cbn [objs]. rewrite nth_upd. destruct (Nat.eqb_spec o y) as [<-|]; [|reflexivity]. destruct (nth_error (objs st) o); [reflexivity|congruence].
Qed.

(** Until close(), a manager is in the map; after it, its socket is closed. *)
Record enrolled (st : astate) : Prop := {
  n_in : forall o m fd, obj st o = Some m -> a_fileno m = Some fd -> In (fd, o) (smap st);
  n_out : forall o m, obj st o = Some m -> a_fileno m = None -> exists k, nth_error (socks st) (a_socket m) = Some k /\ k_open k = false }.
Lemma enrolled_shape st st' : enrolled st -> same_shape st st' -> enrolled st'.
Proof.
  intros [A B] Sh. pose proof Sh as (O & M & D). constructor; unfold obj in *; rewrite O.
  - rewrite M. exact A.
  - intros o m H F. destruct (B o m H F) as (k & N & C). destruct (shape_nth _ _ _ _ Sh N) as (k' & N' & E). exists k'. split; [exact N'|]. unfold descr in E. congruence.
Qed.
Lemma map_set_new m fd o : ~ In fd (map fst m) -> map_set m fd o = m ++ [(fd, o)].
Proof.
  induction m as [|[k x] m IH]; intros H; [reflexivity|]. cbn. destruct (Z.eqb_spec k fd) as [->|]; [elim H; left; reflexivity|]. rewrite IH; [reflexivity|]. intros J. apply H. right. exact J.
Qed.
Lemma map_del_other m fd g y : In (g, y) m -> g <> fd -> In (g, y) (map_del m fd).
Proof.
  induction m as [|[k x] m IH]; [intros []|]. intros [H|H] N; cbn.
  - injection H as -> ->. destruct (Z.eqb_spec g fd); [contradiction|left; reflexivity].
  - destruct (Z.eqb_spec k fd); [exact H|right; auto].
Qed.
Lemma closed_app st k s c : (exists x, nth_error (socks st) s = Some x /\ k_open x = false) -> c = socks st ++ [k] -> exists x, nth_error c s = Some x /\ k_open x = false.
Proof. intros (x & N & C) ->. exists x. split; [|exact C]. rewrite nth_error_app1; [exact N|]. apply nth_error_Some. congruence. Qed.
Lemma fresh_fd st fd : sound st -> fd_free st fd = true -> ~ In fd (map fst (smap st)).
Proof.
  intros S Fr J. apply in_map_iff in J as ([g y] & E & J). cbn in E. subst g. destruct (entry st fd y S J) as (m & s & k & _ & _ & _ & _ & At & _). unfold fd_free in Fr. rewrite At in Fr. discriminate.
Qed.
Lemma obj_grow st x sm k lg sk y m : obj (mkAS sk (objs st ++ [x]) sm k lg) y = Some m <-> obj st y = Some m \/ (y = length (objs st) /\ x = Some m).
Proof.
  unfold obj. cbn [objs]. destruct (Nat.lt_trichotomy y (length (objs st))) as [L|[->|L]].
  - rewrite nth_error_app1 by exact L. split; [auto|intros [H|[-> _]]; [exact H|lia]].
  - rewrite nth_error_app2, Nat.sub_diag by lia. cbn. rewrite (proj2 (nth_error_None (objs st) _)) by lia. split; [auto|intros [H|[_ H]]; [discriminate|exact H]].
  - rewrite (proj2 (nth_error_None (objs st ++ [x]) y)) by (rewrite app_length; cbn; lia). rewrite (proj2 (nth_error_None (objs st) y)) by lia. split; [discriminate|intros [H|[-> _]]; [discriminate|lia]].
Qed.
Lemma enrolled_new st cb i op fd : sound st -> enrolled st -> fd_free st fd = true -> enrolled (anew st cb i op fd).
Proof.
  intros S [A B] Fr.
  assert (Fl : forall st1 e, objs st1 = objs st -> smap st1 = smap st -> (socks st1 = socks st \/ exists k, socks st1 = socks st ++ [k]) -> enrolled (say (mkAS (socks st1) (objs st1 ++ [None]) (smap st1) (astack st1) (alog st1)) e)).
  { intros st1 e O1 M1 K1. apply (enrolled_shape (mkAS (socks st1) (objs st1 ++ [None]) (smap st1) (astack st1) (alog st1))); [|apply shape_say]. rewrite O1, M1. constructor.
    - intros y m g H F. apply obj_grow in H as [H|[_ H]]; [|discriminate]. cbn [smap]. eapply A; eassumption.
    - intros y m H F. apply obj_grow in H as [H|[_ H]]; [|discriminate]. cbn [socks]. destruct K1 as [->|[k K1]]; [eapply B; eassumption|]. eapply (closed_app st); [eapply B; eassumption|exact K1]. }
  unfold anew. destruct cb as [[|]| |]; try (apply Fl; auto; fail).
  unfold kopen. destruct (o_socket op) as [u|e]; [|apply Fl; auto].
  destruct (o_bind op) as [u1|e]; [destruct (o_option op) as [u2|e]|]; try (apply Fl; cbn; eauto; fail).
  match goal with |- enrolled (say ?x ?e) => apply (enrolled_shape x); [|apply shape_say] end. cbn [say socks objs smap astack alog].
  rewrite (map_set_new _ _ _ (fresh_fd st fd S Fr)). constructor.
  - intros y m g H F. cbn [smap]. apply in_or_app. apply obj_grow in H as [H|[-> H]]; [left; eapply A; eassumption|]. injection H as <-. cbn in F. injection F as <-. right. left. reflexivity.
  - intros y m H F. cbn [socks]. apply obj_grow in H as [H|[-> H]]; [|injection H as <-; discriminate F]. eapply (closed_app st); [eapply B; eassumption|reflexivity].
Qed.
(** What close() of [o] does to the state. *)
Lemma aclose_eff st o m r : sound st -> enrolled st -> (forall y m', obj st y = Some m' -> a_socket m' = a_socket m -> y = o) -> (a_socket m < length (socks st))%nat -> obj st o = Some m -> let st' := aclose st o m r in
  (forall y, obj st' y = if Nat.eqb o y then Some (mkA (a_role m) (a_socket m) None (a_interface m)) else obj st y) /\
  (forall g y, In (g, y) (smap st') <-> In (g, y) (smap st) /\ y <> o) /\
  smap st' = filter (fun e => negb (Nat.eqb (snd e) o)) (smap st) /\
  (forall s, s <> a_socket m -> nth_error (socks st') s = nth_error (socks st) s) /\
  (exists k, nth_error (socks st') (a_socket m) = Some k /\ k_open k = false) /\
  astack st' = astack st /\ exists x, alog st' = alog st ++ [EClose o x].
Proof.
  intros S En Ow Lt O. cbv zeta. unfold aclose.
  set (st1 := match a_fileno m with Some fd => set_map st (map_del (smap st) fd) | None => st end).
  assert (Id : forall es, (forall g y, In (g, y) es -> y <> o) -> filter (fun e : Z * nat => negb (Nat.eqb (snd e) o)) es = es).
  { induction es as [|[g y] es IH]; intros H; [reflexivity|]. cbn. destruct (Nat.eqb_spec y o) as [->|]; [elim (H g o); [left|]; reflexivity|]. cbn. f_equal. apply IH. intros a b J. apply (H a b). right. exact J. }
  assert (Fm : forall fd es, NoDup (map fst es) -> (forall g y, In (g, y) es -> (g = fd <-> y = o)) -> map_del es fd = filter (fun e : Z * nat => negb (Nat.eqb (snd e) o)) es).
  { intros fd. induction es as [|[g y] es IH]; intros N H; [reflexivity|]. cbn. inversion N as [|? ? N1 N2]; subst. pose proof (H g y (or_introl eq_refl)) as J.
    assert (H' : forall g y, In (g, y) es -> (g = fd <-> y = o)) by (intros a b Q; apply H; right; exact Q).
    destruct (Z.eqb_spec g fd) as [->|Ne].
    - destruct (Nat.eqb_spec y o) as [->|]; [|tauto]. cbn. symmetry. apply Id. intros a b Q ->.
      assert (a = fd) by (apply (H' a o Q); reflexivity). subst a. apply N1. apply in_map_iff. exists (fd, o). auto.
    - destruct (Nat.eqb_spec y o) as [->|]; [tauto|]. cbn. f_equal. apply IH; assumption. }
  assert (Y : astack st1 = astack st /\ smap st1 = filter (fun e => negb (Nat.eqb (snd e) o)) (smap st) /\ socks st1 = socks st /\ objs st1 = objs st /\ alog st1 = alog st).
  { unfold st1. destruct (a_fileno m) as [fd|] eqn:Fn.
    - repeat split. cbn [set_map smap]. apply Fm; [apply (h_nodup _ S)|]. pose proof (n_in _ En o m fd O Fn) as J0. intros g y J. split.
      + intros ->. pose proof (map_get_nodup _ _ _ (h_nodup _ S) J0). pose proof (map_get_nodup _ _ _ (h_nodup _ S) J). congruence.
      + intros ->. destruct (h_map _ S g o J) as (m' & s & k & H1 & _ & _ & H4 & _). rewrite O in H1. injection H1 as <-. congruence.
    - repeat split. symmetry. apply Id. intros g y J ->. destruct (h_map _ S g o J) as (m' & s & k & H1 & _ & _ & H4 & _). rewrite O in H1. injection H1 as <-. congruence. }
  destruct Y as (Y1 & Y2 & Y3 & Y4 & Y5). clearbody st1.
  set (st2 := set_obj st1 o (mkA (a_role m) (a_socket m) None (a_interface m))).
  assert (Z : forall y, obj st2 y = if Nat.eqb o y then Some (mkA (a_role m) (a_socket m) None (a_interface m)) else obj st y).
  { intros y. unfold st2. rewrite obj_set by (unfold obj; rewrite Y4; unfold obj in O; rewrite O; discriminate). unfold obj. rewrite Y4. reflexivity. }
  assert (W : astack st2 = astack st /\ smap st2 = smap st1 /\ socks st2 = socks st /\ alog st2 = alog st) by auto. clearbody st2. destruct W as (W1 & W2 & W3 & W4).
  destruct (kclose st2 (a_socket m) r) as [st3 r3] eqn:K. unfold kclose in K. rewrite W3 in K.
  destruct (nth_error (socks st) (a_socket m)) as [k|] eqn:N; [|apply nth_error_None in N; lia].
  assert (V : astack st3 = astack st2 /\ smap st3 = smap st2 /\ objs st3 = objs st2 /\ alog st3 = alog st2 /\ (forall s, s <> a_socket m -> nth_error (socks st3) s = nth_error (socks st) s) /\ exists k, nth_error (socks st3) (a_socket m) = Some k /\ k_open k = false).
  { destruct (k_open k) eqn:Op; injection K as <- <-.
    - unfold set_open. rewrite W3, N. cbn [socks astack smap objs alog]. repeat split.
      + intros s Ne. rewrite nth_upd. destruct (Nat.eqb_spec (a_socket m) s); [congruence|reflexivity].
      + eexists. rewrite nth_upd, Nat.eqb_refl, N. split; reflexivity.
    - rewrite W3. repeat split. exists k. auto. }
  destruct V as (V1 & V2 & V3 & V4 & V5 & V6). cbn [say astack smap socks alog]. rewrite V1, V2, W1, W2, V4, W4. split; [|split; [|split; [exact Y2|split; [exact V5|split; [exact V6|split; [reflexivity|eauto]]]]]].
  - intros y. rewrite <- Z. unfold obj. cbn [say objs]. rewrite V3. reflexivity.
  - intros g y. rewrite Y2, filter_In. cbn [snd]. destruct (Nat.eqb_spec y o); cbn; intuition congruence.
Qed.
Lemma socket_owner st o m : inv st -> sound st -> obj st o = Some m -> (forall y m', obj st y = Some m' -> a_socket m' = a_socket m -> y = o) /\ (a_socket m < length (socks st))%nat.
Proof.
  intros I S O. pose proof (i_role st I o m _ O (h_role _ S o m O)) as Ow. split; [|eapply (i_opened st I); exact Ow].
  intros y m' J Eq. eapply (i_owner st I (a_socket m)); [|exact Ow]. eapply (i_role st I); [exact J|rewrite <- Eq; exact (h_role _ S y m' J)].
Qed.
Theorem astep_enrolled st l st' : inv st -> sound st -> enrolled st -> astep st l = Some st' -> (forall o r, l <> AHandleClose o r) -> enrolled st'.
Proof.
  intros I S En E NH. destruct l as [cb i op fd|o q dst op fd r|o|o r|o r| |e|s x]; cbn [astep] in E.
  - destruct (auser (astack st)); [|discriminate]. destruct (fd_free st fd) eqn:Fr; [|discriminate]. cbn in E. injection E as <-. apply enrolled_new; assumption.
  - destruct (fd_free st fd) eqn:Fr; [|discriminate]. unfold with_obj in E. destruct (auser (astack st)); [|discriminate]. destruct (obj st o) as [m|] eqn:O; [|discriminate]. injection E as <-.
    unfold asend. rewrite (h_role _ S o m O). destruct (nth_error (socks st) (a_socket m)) as [k|]; [|exact En]. destruct (k_open k); [|eapply enrolled_shape; [exact En|apply shape_say]].
    destruct r; (eapply enrolled_shape; [exact En|repeat split]).
  - unfold with_obj in E. destruct (auser (astack st)); [|discriminate]. destruct (obj st o) as [m|] eqn:O; [|discriminate]. injection E as <-. unfold apoll.
    destruct (forallb _ _); [|eapply enrolled_shape; [exact En|repeat split]]. eapply enrolled_shape; [exact En|eapply same_trans; [apply shape_say|apply shape_serve]].
  - elim (NH o r). reflexivity.
  - unfold with_obj in E. destruct (auser (astack st)); [|discriminate]. destruct (obj st o) as [m|] eqn:O; [|discriminate]. injection E as <-.
    destruct (socket_owner st o m I S O) as [Ow Lt]. destruct (aclose_eff st o m r S En Ow Lt O) as (A & B & _ & C & D & _). constructor.
    + intros y m' g H F. rewrite A in H. apply B. destruct (Nat.eqb_spec o y) as [<-|]; [injection H as <-; discriminate F|]. split; [eapply (n_in _ En); eassumption|congruence].
    + intros y m' H F. rewrite A in H. destruct (Nat.eqb_spec o y) as [<-|Ne]; [injection H as <-; exact D|]. rewrite C; [eapply (n_out _ En); eassumption|]. intros Eq. apply Ne. symmetry. eapply Ow; eassumption.
  - destruct (astack st) as [|[p0 r0|o ie|o s] [|[p rest|o' ie'|o' s'] k]]; try discriminate. injection E as <-. eapply enrolled_shape; [exact En|eapply same_trans; [apply shape_say|apply shape_serve]].
  - destruct (astack st) as [|[p0 r0|o ie|o s] [|[p rest|o' ie'|o' s'] k]]; try discriminate. injection E as <-. destruct ie; [eapply enrolled_shape; [exact En|repeat split]|].
    eapply enrolled_shape; [exact En|eapply same_trans; [apply shape_say|apply shape_read_error]].
  - destruct (nth_error (socks st) s) as [ks|] eqn:K; [|discriminate]. destruct (k_open ks); [|discriminate].
    assert (X : enrolled (set_queue (say st (EArrive s x)) s (k_queue ks ++ [x]))) by (eapply enrolled_shape; [exact En|eapply same_trans; [apply shape_say|apply shape_queue]]).
    assert (Y : forall p rest k o, enrolled (got (say st (EArrive s x)) p rest k o s x)) by (intros; eapply enrolled_shape; [exact En|eapply same_trans; [apply shape_say|apply shape_got]]).
    destruct (astack st) as [|[p0 r0|o ie|o s0] [|[p rest|o' ie'|o' s'] k]]; try (injection E as <-; assumption).
    destruct (Nat.eqb s s0); injection E as <-; auto.
Qed.
Theorem asteps_sound tr : never_handle_close tr -> forall st st', inv st -> good_stack st -> sound st -> enrolled st -> asteps st tr = Some st' -> inv st' /\ good_stack st' /\ sound st' /\ enrolled st'.
Proof.
  induction tr as [|l tr IH]; intros NH st st' I G S En E; [injection E as <-; auto|]. cbn [asteps] in E. destruct (astep st l) as [st1|] eqn:E1; [|discriminate].
  assert (NH1 : forall o r, l <> AHandleClose o r) by (intros o r ->; apply (NH o r); left; reflexivity).
  destruct (astep_inv _ _ _ I G E1) as [I1 G1]. pose proof (astep_sound _ _ _ I S E1 NH1) as S1. pose proof (astep_enrolled _ _ _ I S En E1 NH1) as En1.
  apply (IH (fun o r J => NH o r (or_intror J)) st1 st' I1 G1 S1 En1 E).
Qed.
Theorem aexec_enrolled tr st : never_handle_close tr -> aexec tr = Some st -> enrolled st.
Proof.
  intros NH E. assert (En : enrolled ainit) by (constructor; intros o m; unfold obj; destruct o; discriminate).
  destruct inv_init as [I G]. destruct (asteps_sound tr NH ainit st I G sound_init En E) as (_ & _ & _ & H). exact H.
Qed.

(** ** Silence after close() *)
(** No data for [o], and what it sends fails. *)
Definition quiet (o : nat) (es : list aevent) : Prop := (forall d a, ~ In (ECb o (Data d a)) es) /\ forall r, In (ESend o r) es -> r = Err OSError.
Definition quiet_ext (o : nat) (st st' : astate) : Prop := exists es, alog st' = alog st ++ es /\ quiet o es.
Lemma quiet_nil o st st' : alog st' = alog st -> quiet_ext o st st'.
Proof. intros E. exists []. rewrite app_nil_r. split; [exact E|split; intros; auto]. destruct H. Qed.
Lemma quiet_trans o a b c : quiet_ext o a b -> quiet_ext o b c -> quiet_ext o a c.
Proof.
  intros (x & X & Q1 & Q2) (y & Y & R1 & R2). exists (x ++ y). split; [rewrite Y, X, app_assoc; reflexivity|]. split.
  - intros d s J. apply in_app_or in J as [J|J]; [eapply Q1|eapply R1]; exact J.
  - intros r J. apply in_app_or in J as [J|J]; [eapply Q2|eapply R2]; exact J.
Qed.
Definition hush (o : nat) (e : aevent) : Prop := match e with ECb y (Data _ _) => y <> o | ESend y r => y <> o \/ r = Err OSError | _ => True end.
Lemma quiet_one o st e st' : alog st' = alog st ++ [e] -> hush o e -> quiet_ext o st st'.
Proof.
  intros E H. exists [e]. split; [exact E|]. split.
  - intros d a [->|[]]. apply H. reflexivity.
  - intros r [->|[]]. destruct H as [H|H]; [elim H; reflexivity|exact H].
Qed.
Lemma quiet_say o st e : hush o e -> quiet_ext o st (say st e).
Proof. apply quiet_one. reflexivity. Qed.
Lemma quiet_read_error o st p rest k y e : quiet_ext o st (read_error st p rest k y e).
Proof. destruct e; eapply quiet_one; try reflexivity; exact Logic.I. Qed.
Lemma quiet_got o st p rest k y s x : y <> o -> quiet_ext o st (got st p rest k y s x).
Proof.
  intros N. unfold got. eapply quiet_trans; [apply (quiet_say o st (ERecv s x)); exact Logic.I|]. destruct x as [[d a]|e]; [eapply quiet_one; [reflexivity|exact N]|apply quiet_read_error].
Qed.
Lemma quiet_queue o st s q : quiet_ext o st (set_queue st s q).
Proof. apply quiet_nil. unfold set_queue. destruct (nth_error (socks st) s); reflexivity. Qed.
Definition unblocked (o : nat) (st : astate) : Prop := forall s k, astack st <> FBlocked o s :: k.
Lemma unblocked_calls o st : calls_only (astack st) -> unblocked o st.
Proof. intros C s k E. rewrite E in C. destruct C. Qed.
Lemma unblocked_read_error o st p rest k y e : calls_only k -> unblocked o (read_error st p rest k y e).
Proof. intros C. apply unblocked_calls. destruct e; exact C. Qed.
Lemma unblocked_got o st p rest k y s x : calls_only k -> unblocked o (got st p rest k y s x).
Proof. intros C. unfold got. destruct x as [[d a]|e]; [apply unblocked_calls; exact C|apply unblocked_read_error; exact C]. Qed.
Lemma quiet_serve o ready : forall st p k, (forall fd, ~ In (fd, o) (smap st)) -> inv st -> calls_only k -> quiet_ext o st (serve st p ready k) /\ unblocked o (serve st p ready k).
Proof.
  induction ready as [|fd r IH]; intros st p k N I C; cbn [serve].
  - split; [eapply quiet_one; [reflexivity|exact Logic.I]|apply unblocked_calls; exact C].
  - destruct (map_get (smap st) fd) as [y|] eqn:E; [|apply IH; assumption]. apply map_get_in in E. assert (Ne : y <> o) by (intros ->; exact (N fd E)).
    split.
    + unfold handle_read. destruct (obj st y) as [m|]; [|apply quiet_nil; reflexivity]. destruct (a_role m) as [s|]; [|apply quiet_read_error].
      destruct (nth_error (socks st) s) as [ks|]; [|apply quiet_nil; reflexivity]. destruct (k_open ks); [|apply quiet_read_error]. destruct (k_queue ks); [apply quiet_nil; reflexivity|].
      eapply quiet_trans; [apply quiet_queue|apply quiet_got; exact Ne].
    + destruct (i_map _ I fd y E) as [m Om]. unfold handle_read. rewrite Om. destruct (a_role m) as [s|] eqn:Ro; [|apply unblocked_read_error; exact C].
      pose proof (i_opened _ I s y (i_role _ I y m s Om Ro)) as L. destruct (nth_error (socks st) s) as [ks|] eqn:K; [|apply nth_error_None in K; lia].
      destruct (k_open ks); [|apply unblocked_read_error; exact C]. destruct (k_queue ks) as [|x q]; [|apply unblocked_got; exact C].
      intros t k' Eq. cbn in Eq. injection Eq as -> _ _. apply Ne. reflexivity.
Qed.
Definition shut (o : nat) (st : astate) : Prop := (exists m, obj st o = Some m /\ a_fileno m = None) /\ unblocked o st.
Lemma shut_map o st : sound st -> shut o st -> forall fd, ~ In (fd, o) (smap st).
Proof. intros S [(m & O & F) _] fd J. destruct (h_map _ S fd o J) as (m' & s & k & H1 & _ & _ & H4 & _). congruence. Qed.
Lemma shape_obj st st' o : same_shape st st' -> (exists m, obj st o = Some m /\ a_fileno m = None) -> exists m, obj st' o = Some m /\ a_fileno m = None.
Proof. intros (O & _) H. unfold obj in *. rewrite O. exact H. Qed.
Theorem astep_shut st l st' o : inv st -> good_stack st -> sound st -> enrolled st -> shut o st -> astep st l = Some st' -> (forall o r, l <> AHandleClose o r) -> quiet_ext o st st' /\ shut o st'.
Proof.
  intros I G S En Sh E NH. pose proof (shut_map o st S Sh) as NM. pose proof Sh as [Ob Ub]. destruct l as [cb i op fd|y q dst op fd r|y|y r|y r| |e|s x]; cbn [astep] in E.
  - destruct (auser (astack st)) eqn:U; [|discriminate]. destruct (fd_free st fd) eqn:Fr; [|discriminate]. cbn in E. injection E as <-. destruct Ob as (m & O & F).
    assert (Fl : forall st1 e x, objs st1 = objs st -> astack st1 = astack st -> quiet_ext o st st1 -> hush o e -> forall M, quiet_ext o st (say (mkAS (socks st1) (objs st1 ++ [x]) M (astack st1) (alog st1)) e) /\ shut o (say (mkAS (socks st1) (objs st1 ++ [x]) M (astack st1) (alog st1)) e)).
    { intros st1 e x O1 A1 Q H M. split; [eapply quiet_trans; [exact Q|eapply quiet_one; [reflexivity|exact H]]|]. split.
      - exists m. split; [|exact F]. rewrite O1. transitivity (obj (mkAS (socks st1) (objs st ++ [x]) M (astack st1) (alog st1)) o); [reflexivity|]. apply obj_grow. auto.
      - intros s k Eq. cbn [say astack] in Eq. rewrite A1 in Eq. exact (Ub s k Eq). }
    assert (Q0 : quiet_ext o st st) by (apply quiet_nil; reflexivity).
    unfold anew. destruct cb as [[|]| |]; try (apply Fl; [reflexivity|reflexivity|exact Q0|exact Logic.I]).
    unfold kopen. destruct (o_socket op) as [u|e]; [|apply Fl; [reflexivity|reflexivity|exact Q0|exact Logic.I]].
    assert (Q1 : quiet_ext o st (say (mkAS (socks st ++ [mkK fd true []]) (objs st) (smap st) (astack st) (alog st)) (EOpened (length (socks st)) (length (objs st)) fd))) by (eapply quiet_one; [reflexivity|exact Logic.I]).
    destruct (o_bind op) as [u1|e]; [destruct (o_option op) as [u2|e]|]; (apply Fl; [reflexivity|reflexivity|exact Q1|exact Logic.I]).
  - destruct (fd_free st fd) eqn:Fr; [|discriminate]. unfold with_obj in E. destruct (auser (astack st)); [|discriminate]. destruct (obj st y) as [m|] eqn:O; [|discriminate]. injection E as <-.
    unfold asend. rewrite (h_role _ S y m O). destruct (nth_error (socks st) (a_socket m)) as [k|] eqn:K; [|split; [apply quiet_nil; reflexivity|exact Sh]].
    destruct (k_open k) eqn:Op; [|split; [apply quiet_say; cbn; auto|exact Sh]].
    assert (Ne : y <> o). { intros ->. destruct Ob as (m' & O' & F). rewrite O in O'. injection O' as <-. destruct (n_out _ En o m O F) as (k' & K' & C). congruence. }
    destruct r; (split; [|exact Sh]).
    + eapply quiet_trans; [apply (quiet_say o st (ESentto (a_socket m) q dst)); exact Logic.I|apply quiet_say; left; exact Ne].
    + apply quiet_say. left. exact Ne.
  - unfold with_obj in E. destruct (auser (astack st)) eqn:U; [|discriminate]. destruct (obj st y) as [m|] eqn:O; [|discriminate]. injection E as <-. pose proof (user_calls st G U) as Ca.
    unfold apoll. destruct (forallb _ _).
    + destruct (quiet_serve o (filter (reported st) (map fst (smap st))) (say st (EPoll y)) y (astack st) NM) as [Q B]; [apply inv_say; [exact I|exact Logic.I]|exact Ca|].
      split; [eapply quiet_trans; [apply (quiet_say o st (EPoll y)); exact Logic.I|exact Q]|]. split; [|exact B]. eapply shape_obj; [|exact Ob]. eapply same_trans; [apply shape_say|apply shape_serve].
    + split; [|exact Sh]. eapply quiet_trans; [apply (quiet_say o st (EPoll y)); exact Logic.I|]. eapply quiet_one; [reflexivity|exact Logic.I].
  - elim (NH y r). reflexivity.
  - unfold with_obj in E. destruct (auser (astack st)) eqn:U; [|discriminate]. destruct (obj st y) as [m|] eqn:O; [|discriminate]. injection E as <-.
    destruct (socket_owner st y m I S O) as [Ow Lt]. destruct (aclose_eff st y m r S En Ow Lt O) as (A & _ & _ & _ & _ & B & x & L).
    split; [eapply quiet_one; [exact L|exact Logic.I]|]. split.
    + destruct Ob as (m' & O' & F). rewrite A. destruct (Nat.eqb_spec y o); [eexists; split; reflexivity|eauto].
    + intros s k Eq. rewrite B in Eq. exact (Ub s k Eq).
  - unfold good_stack in G. destruct (astack st) as [|[p0 r0|y ie|y s] [|[p rest|o' ie'|o' s'] k]] eqn:Es; try discriminate. injection E as <-.
    destruct (quiet_serve o rest (say st (ECbEnd y (Ok tt))) p k NM) as [Q B]; [apply inv_say; [exact I|exact Logic.I]|exact G|].
    split; [eapply quiet_trans; [apply (quiet_say o st (ECbEnd y (Ok tt))); exact Logic.I|exact Q]|]. split; [|exact B]. eapply shape_obj; [|exact Ob]. eapply same_trans; [apply shape_say|apply shape_serve].
  - unfold good_stack in G. destruct (astack st) as [|[p0 r0|y ie|y s] [|[p rest|o' ie'|o' s'] k]] eqn:Es; try discriminate. injection E as <-.
    destruct ie.
    + split; [eapply quiet_trans; [apply (quiet_say o st (ECbEnd y (Err e))); exact Logic.I|]; eapply quiet_one; [reflexivity|exact Logic.I]|]. split; [exact Ob|apply unblocked_calls; exact G].
    + split; [eapply quiet_trans; [apply (quiet_say o st (ECbEnd y (Err e))); exact Logic.I|apply quiet_read_error]|]. split; [|apply unblocked_read_error; exact G].
      eapply shape_obj; [|exact Ob]. eapply same_trans; [apply shape_say|apply shape_read_error].
  - destruct (nth_error (socks st) s) as [ks|] eqn:K; [|discriminate]. destruct (k_open ks); [|discriminate].
    assert (X : quiet_ext o st (set_queue (say st (EArrive s x)) s (k_queue ks ++ [x])) /\ shut o (set_queue (say st (EArrive s x)) s (k_queue ks ++ [x]))).
    { split; [eapply quiet_trans; [apply (quiet_say o st (EArrive s x)); exact Logic.I|apply quiet_queue]|]. split.
      - eapply shape_obj; [|exact Ob]. eapply same_trans; [apply shape_say|apply shape_queue].
      - intros t k Eq. unfold set_queue in Eq. cbn [say socks] in Eq. rewrite K in Eq. exact (Ub t k Eq). }
    unfold good_stack in G. destruct (astack st) as [|[p0 r0|y ie|y s0] [|[p rest|o' ie'|o' s'] k]] eqn:Es; try (injection E as <-; exact X).
    destruct (Nat.eqb s s0); injection E as <-; [|exact X].
    assert (Ne : y <> o) by (intros ->; exact (Ub s0 _ Es)). split.
    + eapply quiet_trans; [apply (quiet_say o st (EArrive s x)); exact Logic.I|apply quiet_got; exact Ne].
    + split; [|apply unblocked_got; apply G]. eapply shape_obj; [|exact Ob]. eapply same_trans; [apply shape_say|apply shape_got].
Qed.
Theorem asteps_shut tr : never_handle_close tr -> forall st st' o, inv st -> good_stack st -> sound st -> enrolled st -> shut o st -> asteps st tr = Some st' -> quiet_ext o st st' /\ shut o st'.
Proof.
  induction tr as [|l tr IH]; intros NH st st' o I G S En Sh E; [injection E as <-; split; [apply quiet_nil; reflexivity|exact Sh]|]. cbn [asteps] in E. destruct (astep st l) as [st1|] eqn:E1; [|discriminate].
  assert (NH1 : forall o r, l <> AHandleClose o r) by (intros y r ->; apply (NH y r); left; reflexivity).
  destruct (astep_inv _ _ _ I G E1) as [I1 G1]. pose proof (astep_sound _ _ _ I S E1 NH1) as S1. pose proof (astep_enrolled _ _ _ I S En E1 NH1) as En1.
  destruct (astep_shut _ _ _ o I G S En Sh E1 NH1) as [Q1 Sh1].
  destruct (IH (fun y r J => NH y r (or_intror J)) st1 st' o I1 G1 S1 En1 Sh1 E) as [Q2 Sh2]. split; [eapply quiet_trans; eassumption|exact Sh2].
Qed.

(** ** A descriptor in the map that is not open *)
Definition dead (f : Z) (st : astate) : Prop := astack st = [] /\ In f (map fst (smap st)) /\ at_fd st f = None.
Definition failing (es : list aevent) : Prop := (forall o x, ~ In (ECb o x) es) /\ (forall s x, ~ In (ERecv s x) es) /\ forall p r, In (EPollEnd p r) es -> r = Err OSError.
Lemma at_fd_descr st f : at_fd st f = None <-> forall d, In d (map descr (socks st)) -> snd d = true -> fst d <> f.
Proof.
  unfold at_fd. split.
  - intros H d J O E. apply in_map_iff in J as (k & <- & J). cbn in *. apply find_none with (x := k) in H; [|exact J]. rewrite O in H. cbn in H. apply Z.eqb_neq in H. contradiction.
  - intros H. destruct (find _ (socks st)) as [k|] eqn:E; [|reflexivity]. apply find_some in E as [J E]. apply andb_true_iff in E as [E1 E2]. apply Z.eqb_eq in E2. elim (H (descr k)); [apply in_map; exact J|exact E1|exact E2].
Qed.
Lemma map_set_key m fd o f : In f (map fst m) -> In f (map fst (map_set m fd o)).
Proof. intros H. rewrite map_set_keys. destruct (existsb _ _); [exact H|apply in_or_app; auto]. Qed.
Lemma dead_poll f st p : dead f st -> apoll st p = say (say st (EPoll p)) (EPollEnd p (Err OSError)).
Proof.
  intros (A & B & C). unfold apoll. destruct (forallb _ _) eqn:E.
  - exfalso. rewrite forallb_forall in E. specialize (E f B). cbn in E. rewrite C in E. discriminate.
  - unfold poll_end, set_stack. cbn [say socks objs smap astack alog]. reflexivity.
Qed.
Definition ext_failing (st st' : astate) : Prop := exists es, alog st' = alog st ++ es /\ failing es.
Lemma failing_app a b : failing a -> failing b -> failing (a ++ b).
Proof.
  intros (A1 & A2 & A3) (B1 & B2 & B3). split; [|split].
  - intros o x J. apply in_app_or in J as [J|J]; [eapply A1|eapply B1]; exact J.
  - intros s x J. apply in_app_or in J as [J|J]; [eapply A2|eapply B2]; exact J.
  - intros p r J. apply in_app_or in J as [J|J]; [eapply A3|eapply B3]; exact J.
Qed.
Lemma failing_one e : match e with ECb _ _ | ERecv _ _ => False | EPollEnd _ r => r = Err OSError | _ => True end -> failing [e].
Proof.
  intros H. split; [|split].
  - intros o x [->|[]]. exact H.
  - intros s x [->|[]]. exact H.
  - intros p r [->|[]]. exact H.
Qed.
Lemma failing_nil : failing [].
Proof. split; [|split]; intros; auto; destruct H. Qed.
Theorem astep_dead f st l st' : dead f st -> astep st l = Some st' -> (forall o r, l <> AClose o r) -> ~ asks_fd l f -> dead f st' /\ ext_failing st st'.
Proof.
  intros D E NC NF. pose proof D as (A & B & C). destruct l as [cb i op fd|o q dst op fd r|o|o r|o r| |e|s x]; cbn [astep] in E; try (rewrite A in E; discriminate).
  - rewrite A in E. cbn [auser andb] in E. destruct (fd_free st fd) eqn:Fr; [|discriminate]. injection E as <-. cbn in NF.
    assert (C1 : at_fd (mkAS (socks st ++ [mkK fd true []]) (objs st) (smap st) (astack st) (alog st)) f = None).
    { apply at_fd_descr. cbn [socks]. rewrite map_app. intros d J O. apply in_app_or in J as [J|[<-|[]]]; [apply (proj1 (at_fd_descr st f) C d J O)|exact NF]. }
    unfold anew, kopen. destruct cb as [[|]| |]; [destruct (o_socket op) as [u|e]; [destruct (o_bind op) as [u1|e]; [destruct (o_option op) as [u2|e]|]|]|..];
      (split; [split; [exact A|split; [cbn [say smap]; try apply map_set_key; exact B|exact C1 || exact C]]|]);
      try (exists [ENew (length (objs st)) (Err ValueError)]; split; [reflexivity|apply failing_one; exact Logic.I]);
      try (exists [ENew (length (objs st)) (Err TypeError)]; split; [reflexivity|apply failing_one; exact Logic.I]);
      try (eexists [ENew (length (objs st)) (Err e)]; split; [reflexivity|apply failing_one; exact Logic.I]);
      (eexists ([_] ++ [_]); split; [cbn [say alog]; rewrite app_assoc; reflexivity|apply failing_app; apply failing_one; exact Logic.I]).
  - destruct (fd_free st fd) eqn:Fr; [|discriminate]. unfold with_obj in E. rewrite A in E. cbn [auser] in E. destruct (obj st o) as [m|] eqn:O; [|discriminate]. injection E as <-. cbn in NF.
    assert (Out : forall st1 s, dead f st1 -> ext_failing st st1 -> let f0 := (fun st0 s => match nth_error (socks st0) s with Some k => if k_open k then say (match r with Ok _ => say st0 (ESentto s q dst) | Err _ => st0 end) (ESend o r) else say st0 (ESend o (Err OSError)) | None => st0 end) in dead f (f0 st1 s) /\ ext_failing st (f0 st1 s)).
    { intros st1 s D1 (es & L & F) f0. unfold f0. destruct (nth_error (socks st1) s) as [k|]; [|split; [exact D1|exists es; auto]].
      destruct (k_open k); [destruct r|]; (split; [exact D1|]); cbn [say].
      - exists ((es ++ [ESentto s q dst]) ++ [ESend o (Ok a)]). cbn [say alog]. rewrite L. split; [rewrite !app_assoc; reflexivity|]. repeat (apply failing_app; [|apply failing_one; exact Logic.I]). exact F.
      - exists (es ++ [ESend o (Err e)]). cbn [say alog]. rewrite L. split; [rewrite !app_assoc; reflexivity|]. apply failing_app; [exact F|apply failing_one; exact Logic.I].
      - exists (es ++ [ESend o (Err OSError)]). cbn [say alog]. rewrite L. split; [rewrite !app_assoc; reflexivity|]. apply failing_app; [exact F|apply failing_one; exact Logic.I]. }
    assert (R0 : ext_failing st st) by (exists []; rewrite app_nil_r; split; [reflexivity|apply failing_nil]).
    unfold asend. destruct (a_role m) as [s|]; [apply Out; assumption|]. unfold kopen. destruct (o_socket op) as [u|e].
    2:{ split; [exact D|]. exists [ESend o (Err e)]. split; [reflexivity|apply failing_one; exact Logic.I]. }
    match goal with |- context [set_obj ?x o ?y] => set (st2 := set_obj x o y) end.
    assert (D2 : dead f st2 /\ ext_failing st st2).
    { split; [split; [exact A|split; [exact B|]]|].
      - apply at_fd_descr. unfold st2. cbn [set_obj say socks]. rewrite map_app. intros d J Q. apply in_app_or in J as [J|[<-|[]]]; [apply (proj1 (at_fd_descr st f) C d J Q)|exact NF].
      - exists [EOpened (length (socks st)) o fd]. split; [reflexivity|apply failing_one; exact Logic.I]. }
    destruct D2 as [D2 F2]. clearbody st2. assert (Fe : forall e, dead f (say st2 (ESend o (Err e))) /\ ext_failing st (say st2 (ESend o (Err e)))).
    { intros e. split; [exact D2|]. destruct F2 as (es & L & F). exists (es ++ [ESend o (Err e)]). cbn [say alog]. rewrite L. split; [rewrite !app_assoc; reflexivity|]. apply failing_app; [exact F|apply failing_one; exact Logic.I]. }
    destruct (o_bind op) as [u1|e]; [destruct (o_option op) as [u2|e]|]; [apply Out; assumption|apply Fe|apply Fe].
  - unfold with_obj in E. rewrite A in E. cbn [auser] in E. destruct (obj st o) as [m|]; [|discriminate]. injection E as <-. rewrite (dead_poll f st o D). split; [exact D|].
    exists ([EPoll o] ++ [EPollEnd o (Err OSError)]). split; [cbn [say alog]; rewrite app_assoc; reflexivity|apply failing_app; apply failing_one; reflexivity || exact Logic.I].
  - unfold with_obj in E. rewrite A in E. cbn [auser] in E. destruct (obj st o) as [m|] eqn:O; [|discriminate]. injection E as <-. unfold ahandle_close.
    assert (X : forall st1 x, dead f st1 -> alog st1 = alog st -> dead f (say st1 (EClose o x)) /\ ext_failing st (say st1 (EClose o x))).
    { intros st1 x D1 L. split; [exact D1|]. exists [EClose o x]. cbn [say alog]. rewrite L. split; [reflexivity|apply failing_one; exact Logic.I]. }
    destruct (a_role m) as [s|]; [|apply X; [exact D|reflexivity]]. unfold kclose.
    assert (Y : forall st1 m', dead f st1 -> dead f (set_obj st1 o m')) by (intros st1 m' D1; exact D1).
    destruct (nth_error (socks st) s) as [k|] eqn:K; [|apply X; [apply Y; exact D|reflexivity]].
    destruct (k_open k) eqn:Op; [|apply X; [apply Y; exact D|reflexivity]].
    assert (D1 : dead f (set_open st s false) /\ alog (set_open st s false) = alog st).
    { unfold set_open. rewrite K. split; [|reflexivity]. split; [exact A|split; [exact B|]]. apply at_fd_descr. cbn [socks]. intros d J Q. apply in_map_iff in J as (k' & <- & J). cbn in Q.
      apply In_nth_error in J as [t J]. rewrite nth_upd, K in J. destruct (Nat.eqb s t); [injection J as <-; discriminate Q|]. cbn. eapply at_fd_none; eassumption. }
    destruct D1 as [D1 L1]. destruct r; (apply X; [try apply Y; exact D1|exact L1]).
  - elim (NC o r). reflexivity.
  - destruct (nth_error (socks st) s) as [ks|] eqn:K; [|discriminate]. destruct (k_open ks); [|discriminate]. rewrite A in E. injection E as <-.
    assert (Sh : same_shape st (set_queue (say st (EArrive s x)) s (k_queue ks ++ [x]))) by (eapply same_trans; [apply shape_say|apply shape_queue]).
    split; [split; [|split]|].
    + unfold set_queue. cbn [say socks]. rewrite K. exact A.
    + destruct Sh as (_ & M & _). rewrite M. exact B.
    + apply at_fd_descr. destruct Sh as (_ & _ & D1). rewrite D1. apply at_fd_descr. exact C.
    + exists [EArrive s x]. unfold set_queue. cbn [say socks]. rewrite K. split; [reflexivity|apply failing_one; exact Logic.I].
Qed.
Theorem asteps_dead f tr : (forall o r, ~ In (AClose o r) tr) -> (forall l, In l tr -> ~ asks_fd l f) -> forall st st', dead f st -> asteps st tr = Some st' -> dead f st' /\ ext_failing st st'.
Proof.
  induction tr as [|l tr IH]; intros NC NF st st' D E; [injection E as <-; split; [exact D|exists []; rewrite app_nil_r; split; [reflexivity|apply failing_nil]]|].
  cbn [asteps] in E. destruct (astep st l) as [st1|] eqn:E1; [|discriminate].
  destruct (astep_dead f st l st1 D E1) as [D1 (es & L & F)]; [intros o r ->; apply (NC o r); left; reflexivity|apply NF; left; reflexivity|].
  destruct (IH (fun o r J => NC o r (or_intror J)) (fun l J => NF l (or_intror J)) st1 st' D1 E) as [D2 (es' & L' & F')].
  split; [exact D2|]. exists (es ++ es'). rewrite L', L, app_assoc. split; [reflexivity|apply failing_app; assumption].
Qed.

(** ** The rest of a poll() after close() in a callback *)
Definition firsts (st : astate) (ready : list Z) : list (nat * nat * packet) :=
  flat_map (fun fd => match map_get (smap st) fd with Some o => first_of st (fd, o) | None => [] end) ready.
Lemma serve_list p k : forall ready st l, sound st -> due st ready -> firsts st ready = map as_waiting l ->
  exists st', asteps (serve st p ready k) (repeat AReturn (length l)) = Some st' /\ astack st' = k /\
    alog st' = alog st ++ flat_map served l ++ [EPollEnd p (Ok tt)] /\ same_shape st st'.
Proof.
  induction ready as [|fd ready IH]; intros st l S D E.
  - destruct l; [|discriminate]. cbn. eexists. split; [reflexivity|]. repeat split.
  - cbn [firsts flat_map serve] in *. fold (firsts st ready) in E. destruct (map_get (smap st) fd) as [o|] eqn:G; [|apply IH; [exact S|eapply due_less; exact D|exact E]].
    apply map_get_in in G. assert (R : reported st fd = true) by (apply D; [left; reflexivity|apply in_map_iff; exists (fd, o); auto]).
    destruct (first_cases st fd o S G) as [[_ R']|(m & s & ks & x & q & F & _ & O & Ro & Ns & Op & Q)]; [congruence|]. rewrite F in E. destruct l as [|v l]; [discriminate|].
    cbn [app map] in E. injection E as Eo Es Ex E. subst o s x.
    destruct (serve_one st p ready k fd (v_mgr v) m (v_sock v) ks (v_data v) (v_src v) q S G O Ro Ns Op Q) as (st1 & E1 & Sh & St & Lg & Q1 & Q2).
    rewrite E1. cbn [length repeat asteps astep]. rewrite St. set (st2 := say st1 (ECbEnd (v_mgr v) (Ok tt))).
    assert (Sh2 : same_shape st st2) by exact Sh. assert (S2 : sound st2) by (eapply sound_shape; [exact S|assumption]).
    assert (Q2' : forall t, t <> v_sock v -> queued st2 t = queued st t) by exact Q2. destruct D as [N H]. inversion N as [|? ? N1 N2]; subst.
    assert (Ot : forall g y m' s', In (g, y) (smap st) -> In g ready -> obj st y = Some m' -> a_role m' = Some s' -> queued st2 s' = queued st s').
    { intros g y m' s' J Jr O' R'. apply Q2'. apply not_eq_sym. eapply (entries_differ st fd (v_mgr v) g y); try eassumption. intros ->. contradiction. }
    destruct (IH st2 l S2) as (st' & A & B & C & D').
    + split; [exact N2|]. intros g Jr Jm. pose proof Sh2 as (_ & M & _). rewrite M in Jm. pose proof Jm as Jm'. apply in_map_iff in Jm as ([g' y] & Eg & J). cbn in Eg. subst g'.
      rewrite (reported_same st st2 g y S S2 Sh2 J); [apply H; [right; exact Jr|exact Jm']|]. intros m' s' O' R'. eapply Ot; eassumption.
    + rewrite <- E. unfold firsts. assert (X : forall r, incl r ready -> flat_map (fun fd0 => match map_get (smap st2) fd0 with Some o => first_of st2 (fd0, o) | None => [] end) r = flat_map (fun fd0 => match map_get (smap st) fd0 with Some o => first_of st (fd0, o) | None => [] end) r).
      { pose proof Sh2 as (_ & M & _). rewrite M. induction r as [|g r IHr]; intros Sub; [reflexivity|]. cbn [flat_map]. rewrite IHr by (intros z Z; apply Sub; right; exact Z). f_equal.
        destruct (map_get (smap st) g) as [y|] eqn:Gy; [|reflexivity]. apply map_get_in in Gy. apply (first_same st st2 g y Sh2). intros m' s' O' R'. eapply Ot; try eassumption. apply Sub. left. reflexivity. }
      apply X. apply incl_refl.
    + exists st'. split; [exact A|]. split; [exact B|]. split; [|eapply same_trans; eassumption]. rewrite C. unfold st2. cbn [say alog]. rewrite Lg. cbn [flat_map]. unfold served at 2, handed. rewrite <- !app_assoc. reflexivity.
Qed.
Lemma firsts_keys st es : NoDup (map fst (smap st)) -> incl es (smap st) -> firsts st (map fst es) = flat_map (first_of st) es.
Proof.
  intros N. induction es as [|[g y] es IH]; intros Sub; [reflexivity|]. cbn [map fst firsts flat_map]. fold (firsts st (map fst es)). rewrite IH by (intros z Z; apply Sub; right; exact Z).
  rewrite (map_get_nodup _ _ _ N (Sub _ (or_introl eq_refl))). reflexivity.
Qed.
Lemma firsts_reported st : sound st -> forall es, incl es (smap st) -> firsts st (filter (reported st) (map fst es)) = flat_map (first_of st) es.
Proof.
  intros S. induction es as [|[g y] es IH]; intros Sub; [reflexivity|]. cbn [map fst filter flat_map]. assert (J : In (g, y) (smap st)) by (apply Sub; left; reflexivity).
  rewrite <- IH by (intros z Z; apply Sub; right; exact Z). destruct (first_cases st g y S J) as [[-> ->]|(m & s & k & x & q & F & -> & _)]; [reflexivity|].
  cbn [firsts flat_map]. rewrite (map_get_nodup _ _ _ (h_nodup _ S) J). reflexivity.
Qed.
(** close() of [y] in a callback: the queues and managers of the others do not change. *)
Theorem poll_close_in_callback tr st p l1 v l2 y r : aexec tr = Some st -> never_handle_close tr -> auser (astack st) = true -> obj st p <> None -> obj st y <> None -> waiting st = map as_waiting (l1 ++ v :: l2) ->
  let left := filter (fun w => negb (Nat.eqb (v_mgr w) y)) l2 in
  exists st' x, asteps st (APoll p :: repeat AReturn (length l1) ++ AClose y r :: AReturn :: repeat AReturn (length left)) = Some st' /\ astack st' = astack st /\
    alog st' = alog st ++ EPoll p :: flat_map served l1 ++ handed v ++ [EClose y x; ECbEnd (v_mgr v) (Ok tt)] ++ flat_map served left ++ [EPollEnd p (Ok tt)].
Proof.
  intros E NH U O Oy W left. pose proof (aexec_sound tr NH st E) as S. pose proof (aexec_enrolled tr st NH E) as En. destruct (aexec_inv tr st E) as [I G].
  assert (E0 : aexec (tr ++ [APoll p]) = Some (apoll st p)) by (unfold aexec in *; rewrite asteps_app, E; cbn [asteps astep]; unfold with_obj; rewrite U; destruct (obj st p); [reflexivity|contradiction]).
  cbn [asteps astep]. unfold with_obj at 1. rewrite U. destruct (obj st p) as [m|]; [|contradiction].
  unfold apoll in *. rewrite (all_open st S) in *. rewrite <- (reported_say st (EPoll p)) in *.
  assert (S0 : sound (say st (EPoll p))) by exact (sound_shape _ _ S (shape_say _ _)). rewrite map_app in W. cbn [map] in W.
  destruct (serve_prefix p (astack st) (as_waiting v :: map as_waiting l2) (smap st) (say st (EPoll p)) l1 S0) as (st1 & es1 & A & Sh & L & In1 & N1 & E1); [apply incl_refl|apply (h_nodup _ S)|exact W|].
  assert (S1 : sound st1) by (eapply sound_shape; [exact S0|exact Sh]).
  destruct (serve_next p (astack st) _ _ _ _ es1 st1 S1 In1 N1 E1) as (fd & es2 & m1 & ks & q & B & O1 & R1 & K1 & Q1 & I1 & In2 & N2 & F2 & E2).
  rewrite asteps_app, A, B. cbn [asteps]. unfold got.
  destruct (rest_queue st1 fd _ _ m1 ks q es2 S1 I1 O1 R1 K1 In2 F2) as (S2 & R2 & E3).
  set (st2 := say (set_stack (say (set_queue st1 (v_sock v) q) (ERecv (v_sock v) (Ok (v_data v, v_src v)))) (FCallback (v_mgr v) false :: FPolling p (filter (reported st1) (map fst es2)) :: astack st)) (ECb (v_mgr v) (Data (v_data v) (v_src v)))).
  assert (Ex : aexec ((tr ++ [APoll p]) ++ repeat AReturn (length l1)) = Some st2) by (unfold aexec in *; rewrite asteps_app, E0, A, B; reflexivity).
  destruct (aexec_inv _ _ Ex) as [I2 _].
  assert (NH2 : never_handle_close ((tr ++ [APoll p]) ++ repeat AReturn (length l1))).
  { intros o0 r0 J. apply in_app_or in J as [J|J]; [apply in_app_or in J as [J|[J|[]]]; [exact (NH o0 r0 J)|discriminate]|apply repeat_spec in J; discriminate]. }
  pose proof (aexec_enrolled _ _ NH2 Ex) as En2.
  assert (S3 : sound st2) by (eapply sound_shape; [exact S2|repeat split]).
  assert (Ar : reported st2 = reported (set_queue st1 (v_sock v) q)) by reflexivity. assert (Af : first_of st2 = first_of (set_queue st1 (v_sock v) q)) by reflexivity.
  assert (M2 : smap st2 = smap st1) by (pose proof (shape_queue st1 (v_sock v) q) as (_ & M & _); exact M).
  assert (As : astack st2 = FCallback (v_mgr v) false :: FPolling p (filter (reported st1) (map fst es2)) :: astack st) by reflexivity.
  assert (Ob2 : objs st2 = objs st).
  { pose proof (shape_queue st1 (v_sock v) q) as (H1 & _). destruct Sh as (H2 & _). change (objs st2) with (objs (set_queue st1 (v_sock v) q)). rewrite H1, H2. reflexivity. }
  assert (Al : alog st2 = alog st1 ++ handed v). { unfold st2, set_queue. rewrite K1. cbn [say set_stack alog]. unfold handed. rewrite <- app_assoc. reflexivity. }
  rewrite <- R2, <- Ar in As. rewrite <- E3, <- Af in E2. rewrite <- M2 in In2. clearbody st2. cbn [astep]. unfold with_obj. rewrite As. cbn [auser].
  destruct (obj st2 y) as [my|] eqn:Oy2; [|exfalso; apply Oy; unfold obj in *; rewrite <- Ob2; exact Oy2].
  destruct (socket_owner st2 y my I2 S3 Oy2) as [Ow Lt].
  pose proof (aclose_eff st2 y my r S3 En2 Ow Lt Oy2) as (B1 & B2 & B3 & B4 & B5 & B6 & x & B7). cbv zeta in *.
  assert (S4 : sound (aclose st2 y my r)).
  { apply (astep_sound st2 (AClose y r)); [exact I2|exact S3| |discriminate]. cbn [astep]. unfold with_obj. rewrite As. cbn [auser]. rewrite Oy2. reflexivity. }
  rewrite B6, As.
  set (st4 := say (aclose st2 y my r) (ECbEnd (v_mgr v) (Ok tt))). assert (S5 : sound st4) by exact (sound_shape _ _ S4 (shape_say _ _)).
  assert (Same : forall g z, In (g, z) (smap st2) -> z <> y -> first_of st4 (g, z) = first_of st2 (g, z) /\ reported st4 g = reported st2 g /\ In (g, z) (smap st4)).
  { intros g z J Nz. assert (J4 : In (g, z) (smap st4)) by (apply B2; auto). destruct (h_map _ S3 g z J) as (mz & s & kz & H1 & H2 & H3 & H4 & H5 & H6 & H7).
    assert (O4 : obj st4 z = Some mz) by (change (obj st4 z) with (obj (aclose st2 y my r) z); rewrite B1; destruct (Nat.eqb_spec y z); [congruence|exact H1]).
    assert (Ks : nth_error (socks st4) s = Some kz). { change (socks st4) with (socks (aclose st2 y my r)). rewrite B4; [exact H5|]. intros Eq. apply Nz. eapply Ow; [exact H1|congruence]. }
    split; [|split; [|exact J4]].
    - unfold first_of. cbn [snd]. rewrite O4, H1, H2. unfold queued. rewrite Ks, H5. reflexivity.
    - unfold reported. rewrite (at_fd_here st4 g s kz S5 Ks H6 H7), (at_fd_here st2 g s kz S3 H5 H6 H7). reflexivity. }
  assert (Fin : forall es, incl es (smap st2) -> forall l, flat_map (first_of st2) es = map as_waiting l -> firsts st4 (filter (reported st2) (map fst es)) = map as_waiting (filter (fun w => negb (Nat.eqb (v_mgr w) y)) l)).
  { induction es as [|[g z] es IH]; intros Sub l El; [destruct l; [reflexivity|discriminate]|]. assert (J : In (g, z) (smap st2)) by (apply Sub; left; reflexivity).
    assert (Sub' : incl es (smap st2)) by (intros w Z; apply Sub; right; exact Z). cbn [map fst filter flat_map] in *.
    destruct (first_cases st2 g z S3 J) as [[F R]|(mz & s & kz & x0 & qz & F & R & _)]; rewrite F in El; rewrite R; [apply IH; assumption|].
    destruct l as [|w l]; [discriminate|]. cbn [app map] in El. injection El as Ez Es' Ex' El. cbn [firsts flat_map]. fold (firsts st4 (filter (reported st2) (map fst es))). rewrite (IH Sub' l El). cbn [filter].
    destruct (Nat.eqb_spec (v_mgr w) y) as [Ey|Ny]; cbn [negb].
    - destruct (map_get (smap st4) g) as [o0|] eqn:Gg; [|reflexivity]. exfalso. apply map_get_in in Gg. apply B2 in Gg as [Gg No]. apply No.
      pose proof (map_get_nodup _ _ _ (h_nodup _ S3) Gg). pose proof (map_get_nodup _ _ _ (h_nodup _ S3) J). congruence.
    - destruct (Same g z J ltac:(congruence)) as (Fs & _ & J4). rewrite (map_get_nodup _ _ _ (h_nodup _ S5) J4), Fs, F. cbn [map app]. f_equal. unfold as_waiting. rewrite <- Ez, Es', Ex'. reflexivity. }
  destruct (serve_list p (astack st) (filter (reported st2) (map fst es2)) st4 left S5) as (st' & C1 & C2 & C3 & _).
  - split; [apply NoDup_filter; exact N2|]. intros g J1 J2. apply filter_In in J1 as [_ J1]. apply in_map_iff in J2 as ([g' z] & Eg & J2). cbn in Eg. subst g'. apply B2 in J2 as [J2 Nz].
    destruct (Same g z J2 Nz) as (_ & Rp & _). rewrite Rp. exact J1.
  - apply Fin; [exact In2|exact E2].
  - exists st', x. split; [exact C1|]. split; [exact C2|]. rewrite C3. unfold st4. cbn [say alog]. rewrite B7, Al, L. cbn [say alog]. repeat (rewrite <- !app_assoc; cbn [app]). reflexivity.
Qed.

(** The callback that got its ValueError back raises: poll() ends. *)
Theorem poll_valueerror_raised tr st p l1 v l2 e : aexec tr = Some st -> never_handle_close tr -> auser (astack st) = true -> obj st p <> None -> waiting st = map as_waiting (l1 ++ v :: l2) ->
  exists st', asteps st (APoll p :: repeat AReturn (length l1) ++ [ARaise ValueError; ARaise e]) = Some st' /\ astack st' = astack st /\
    alog st' = alog st ++ EPoll p :: flat_map served l1 ++ handed v ++ [ECbEnd (v_mgr v) (Err ValueError); ECb (v_mgr v) (Exc ValueError); ECbEnd (v_mgr v) (Err e); EPollEnd p (Err e)] /\ incl (map as_waiting l2) (waiting st').
Proof.
  intros E NH U O W. pose proof (aexec_sound tr NH st E) as S. cbn [asteps astep]. unfold with_obj. rewrite U. destruct (obj st p) as [m|]; [|contradiction].
  unfold apoll. rewrite (all_open st S). rewrite <- (reported_say st (EPoll p)).
  assert (S0 : sound (say st (EPoll p))) by exact (sound_shape _ _ S (shape_say _ _)). rewrite map_app in W. cbn [map] in W.
  destruct (serve_prefix p (astack st) (as_waiting v :: map as_waiting l2) (smap st) (say st (EPoll p)) l1 S0) as (st1 & es1 & A & Sh & L & In1 & N1 & E1); [apply incl_refl|apply (h_nodup _ S)|exact W|].
  assert (S1 : sound st1) by (eapply sound_shape; [exact S0|exact Sh]).
  destruct (serve_next p (astack st) _ _ _ _ es1 st1 S1 In1 N1 E1) as (fd & es2 & m1 & ks & q & B & O1 & R1 & K1 & Q1 & I1 & In2 & N2 & F2 & E2).
  rewrite asteps_app, A, B. cbn [asteps]. unfold got. cbn [astep say set_stack astack]. cbn [asteps astep read_error say set_stack astack].
  destruct (rest_queue st1 fd _ _ m1 ks q es2 S1 I1 O1 R1 K1 In2 F2) as (S2 & R2 & E3). eexists. split; [reflexivity|]. split; [reflexivity|]. split.
  - unfold set_queue. rewrite K1. cbn [poll_end say set_stack alog]. rewrite L. cbn [say alog]. unfold handed. repeat (rewrite <- !app_assoc; cbn [app]). reflexivity.
  - rewrite <- E2, <- E3. match goal with |- incl _ (waiting ?x) => change (waiting x) with (waiting (set_queue st1 (v_sock v) q)) end.
    apply waiting_rest. pose proof (shape_queue st1 (v_sock v) q) as (_ & M & _). rewrite M. exact In2.
Qed.
