(** * Proofs about poll() with several managers. *)
From Coq Require Import ZArith List Bool Lia Arith.
From Verif Require Import PyBase Role Asyn SpecAsyn ProofsAsyn.
Import ListNotations.
Open Scope Z_scope.

(** ** poll() serves everybody *)
Lemma map_get_nodup m fd o : NoDup (map fst m) -> In (fd, o) m -> map_get m fd = Some o.
Proof.
  induction m as [|[k x] m IH]; [intros _ []|]. cbn. intros N [H|H]; inversion N as [|? ? N1 N2]; subst.
  - injection H as -> ->. rewrite Z.eqb_refl. reflexivity.
  - destruct (Z.eqb_spec k fd) as [->|]; [|auto]. elim N1. apply in_map_iff. exists (fd, o). auto.
Qed.
Definition first_of (st : astate) (e : Z * nat) : list (nat * nat * packet) :=
  match obj st (snd e) with
  | Some m => match a_role m with Some s => match queued st s with x :: _ => [(snd e, s, x)] | [] => [] end | None => [] end
  | None => []
  end.
Lemma waiting_eq st : waiting st = flat_map (first_of st) (smap st). Proof. reflexivity. Qed.
(** For an entry of the map, select() looks at the manager's socket. *)
Lemma entry st fd o : sound st -> In (fd, o) (smap st) -> exists m s k, obj st o = Some m /\ a_role m = Some s /\ nth_error (socks st) s = Some k /\ k_open k = true /\
  at_fd st fd = Some k /\ queued st s = k_queue k /\ reported st fd = (match k_queue k with [] => false | _ => true end) /\ k_fd k = fd.
Proof.
  intros S I. destruct (h_map _ S fd o I) as (m & s & k & H1 & H2 & H3 & H4 & H5 & H6 & H7). exists m, s, k.
  pose proof (at_fd_here st fd s k S H5 H6 H7) as At. repeat split; try assumption; [unfold queued; rewrite H5; reflexivity|unfold reported; rewrite At; reflexivity].
Qed.
Lemma all_open st : sound st -> forallb (fun fd => match at_fd st fd with Some _ => true | None => false end) (map fst (smap st)) = true.
Proof.
  intros S. apply forallb_forall. intros fd I. apply in_map_iff in I as ([g o] & <- & I). destruct (entry st g o S I) as (m & s & k & _ & _ & _ & _ & At & _). cbn [fst]. rewrite At. reflexivity.
Qed.
(** Two entries have two sockets. *)
Lemma entries_differ st fd o fd' o' m m' s s' : sound st -> In (fd, o) (smap st) -> In (fd', o') (smap st) -> fd <> fd' -> obj st o = Some m -> obj st o' = Some m' ->
  a_role m = Some s -> a_role m' = Some s' -> s <> s'.
Proof.
  intros S I I' N O O' R R' ->. destruct (entry st fd o S I) as (m1 & s1 & k1 & A1 & A2 & A3 & _ & _ & _ & _ & A4). destruct (entry st fd' o' S I') as (m2 & s2 & k2 & B1 & B2 & B3 & _ & _ & _ & _ & B4). congruence.
Qed.
(** The state after serving one datagram: only the queue of that socket is shorter. *)
Lemma serve_one st p rest k fd o m s ks d a q : sound st -> In (fd, o) (smap st) -> obj st o = Some m -> a_role m = Some s -> nth_error (socks st) s = Some ks -> k_open ks = true ->
  k_queue ks = Ok (d, a) :: q ->
  exists st1, handle_read st p rest k o = st1 /\ same_shape st st1 /\ astack st1 = FCallback o false :: FPolling p rest :: k /\
    alog st1 = alog st ++ [ERecv s (Ok (d, a)); ECb o (Data d a)] /\ queued st1 s = q /\ forall t, t <> s -> queued st1 t = queued st t.
Proof.
  intros S I O R N Op Q. unfold handle_read. rewrite O, R, N, Op, Q. eexists. split; [reflexivity|].
  split; [eapply same_trans; [apply (shape_queue st s q)|apply shape_got]|]. unfold set_queue. rewrite N. cbn [got say set_stack astack alog socks]. split; [reflexivity|].
  split; [rewrite <- app_assoc; reflexivity|]. unfold queued, got. cbn [say set_stack socks]. split.
  - rewrite nth_upd, Nat.eqb_refl, N. reflexivity.
  - intros t T. rewrite nth_upd. destruct (Nat.eqb_spec s t); [congruence|reflexivity].
Qed.
Lemma first_same st st1 fd o : same_shape st st1 -> (forall m s, obj st o = Some m -> a_role m = Some s -> queued st1 s = queued st s) -> first_of st1 (fd, o) = first_of st (fd, o).
Proof.
  intros (O & _ & _) Q. unfold first_of. cbn [snd]. assert (E : obj st1 o = obj st o) by (unfold obj; rewrite O; reflexivity). rewrite E.
  destruct (obj st o) as [m|]; [|reflexivity]. destruct (a_role m) as [s|] eqn:R; [|reflexivity]. rewrite (Q m s eq_refl R). reflexivity.
Qed.
Lemma reported_same st st1 fd o : sound st -> sound st1 -> same_shape st st1 -> In (fd, o) (smap st) -> (forall m s, obj st o = Some m -> a_role m = Some s -> queued st1 s = queued st s) -> reported st1 fd = reported st fd.
Proof.
  intros S S1 Sh I Q. pose proof Sh as (O & M & _). destruct (entry st fd o S I) as (m & s & k & A1 & A2 & A3 & A4 & A5 & A6 & A7 & A8).
  destruct (entry st1 fd o S1) as (m' & s' & k' & B1 & B2 & B3 & B4 & B5 & B6 & B7 & B8); [rewrite M; exact I|].
  unfold obj in *. rewrite O in B1. rewrite A1 in B1. injection B1 as <-. rewrite A2 in B2. injection B2 as <-. rewrite A7, B7, <- A6, <- B6. rewrite (Q m s A1 A2). reflexivity.
Qed.
(** The rest of the loop is not affected by serving one entry. *)
Lemma rest_same st st1 fd o s es : sound st -> sound st1 -> same_shape st st1 -> In (fd, o) (smap st) -> (exists m, obj st o = Some m /\ a_role m = Some s) ->
  (forall t, t <> s -> queued st1 t = queued st t) -> incl es (smap st) -> ~ In fd (map fst es) ->
  filter (reported st1) (map fst es) = filter (reported st) (map fst es) /\ flat_map (first_of st1) es = flat_map (first_of st) es.
Proof.
  intros S S1 Sh I (m & O & R) Q. induction es as [|[g y] es IH]; intros In1 N; [auto|]. cbn [map fst filter flat_map].
  assert (Iy : In (g, y) (smap st)) by (apply In1; left; reflexivity). assert (Ne : fd <> g) by (intros ->; apply N; left; reflexivity).
  assert (Qy : forall m' s', obj st y = Some m' -> a_role m' = Some s' -> queued st1 s' = queued st s').
  { intros m' s' O' R'. apply Q. apply not_eq_sym. eapply (entries_differ st fd o g y); eassumption. }
  rewrite (reported_same st st1 g y S S1 Sh Iy Qy), (first_same st st1 g y Sh Qy).
  destruct IH as [E1 E2]; [intros z Z; apply In1; right; exact Z|intros Z; apply N; right; exact Z|]. rewrite E1, E2. auto.
Qed.
Lemma first_cases st fd o : sound st -> In (fd, o) (smap st) ->
  (first_of st (fd, o) = [] /\ reported st fd = false) \/
  exists m s k x q, first_of st (fd, o) = [(o, s, x)] /\ reported st fd = true /\ obj st o = Some m /\ a_role m = Some s /\ nth_error (socks st) s = Some k /\ k_open k = true /\ k_queue k = x :: q.
Proof.
  intros S I. destruct (entry st fd o S I) as (m & s & k & A1 & A2 & A3 & A4 & A5 & A6 & A7 & A8). unfold first_of. cbn [snd]. rewrite A1, A2, A6, A7.
  destruct (k_queue k) as [|x q] eqn:Eq; [left; auto|right]. exists m, s, k, x, q. repeat split; assumption.
Qed.
Lemma serve_all p k : forall es st l, sound st -> incl es (smap st) -> NoDup (map fst es) -> flat_map (first_of st) es = map as_waiting l ->
  exists st', asteps (serve st p (filter (reported st) (map fst es)) k) (repeat AReturn (length l)) = Some st' /\ astack st' = k /\
    alog st' = alog st ++ flat_map served l ++ [EPollEnd p (Ok tt)] /\ same_shape st st'.
Proof.
  induction es as [|[fd o] es IH]; intros st l S In1 N E.
  - destruct l; [|discriminate]. cbn. eexists. split; [reflexivity|]. repeat split.
  - assert (I : In (fd, o) (smap st)) by (apply In1; left; reflexivity). assert (In2 : incl es (smap st)) by (intros z Z; apply In1; right; exact Z).
    inversion N as [|? ? N1 N2]; subst. cbn [map fst filter flat_map] in *. destruct (first_cases st fd o S I) as [[F R]|(m & s & ks & x & q & F & R & O & Ro & Ns & Op & Q)]; rewrite F in E; rewrite R; cbn [app] in E.
    + apply (IH st l S In2 N2 E).
    + destruct l as [|v l]; [discriminate|]. cbn [map] in E. injection E as Eo Es Ex E. subst o s x.
      cbn [serve]. rewrite (map_get_nodup _ _ _ (h_nodup _ S) I).
      destruct (serve_one st p (filter (reported st) (map fst es)) k fd (v_mgr v) m (v_sock v) ks (v_data v) (v_src v) q S I O Ro Ns Op Q) as (st1 & E1 & Sh & St & Lg & Q1 & Q2).
      rewrite E1. cbn [length repeat asteps astep]. rewrite St. set (st2 := say st1 (ECbEnd (v_mgr v) (Ok tt))).
      assert (Sh2 : same_shape st st2) by exact Sh. assert (S2 : sound st2) by (eapply sound_shape; [exact S|assumption]).
      assert (Q2' : forall t, t <> v_sock v -> queued st2 t = queued st t) by exact Q2.
      destruct (rest_same st st2 fd (v_mgr v) (v_sock v) es S S2 Sh2 I (ex_intro _ m (conj O Ro)) Q2' In2 N1) as [R1 R2].
      rewrite <- R1. destruct (IH st2 l S2) as (st' & A & B & C & D).
      { destruct Sh2 as (_ & M & _). rewrite M. exact In2. } { exact N2. } { rewrite R2. exact E. }
      exists st'. split; [exact A|]. split; [exact B|]. split; [|eapply same_trans; eassumption]. rewrite C. unfold st2. cbn [say alog]. rewrite Lg. cbn [flat_map]. unfold served at 2, handed. rewrite <- !app_assoc. reflexivity.
Qed.
Lemma serve_until p k v l2 : forall es st l1, sound st -> incl es (smap st) -> NoDup (map fst es) -> flat_map (first_of st) es = map as_waiting (l1 ++ v :: l2) ->
  exists st' rest, asteps (serve st p (filter (reported st) (map fst es)) k) (repeat AReturn (length l1)) = Some st' /\
    astack st' = FCallback (v_mgr v) false :: FPolling p rest :: k /\ alog st' = alog st ++ flat_map served l1 ++ handed v /\ same_shape st st' /\
    forall w, In w l2 -> exists fd, In (fd, v_mgr w) (smap st') /\ In (as_waiting w) (first_of st' (fd, v_mgr w)).
Proof.
  induction es as [|[fd o] es IH]; intros st l1 S In1 N E.
  - destruct l1; discriminate.
  - assert (I : In (fd, o) (smap st)) by (apply In1; left; reflexivity). assert (In2 : incl es (smap st)) by (intros z Z; apply In1; right; exact Z).
    inversion N as [|? ? N1 N2]; subst. cbn [map fst filter flat_map] in *. destruct (first_cases st fd o S I) as [[F R]|(m & s & ks & x & q & F & R & O & Ro & Ns & Op & Q)]; rewrite F in E; rewrite R; cbn [app] in E.
    + apply (IH st l1 S In2 N2 E).
    + cbn [serve]. rewrite (map_get_nodup _ _ _ (h_nodup _ S) I). destruct l1 as [|u l1].
      * cbn [app map] in E. injection E as Eo Es Ex E. subst o s x.
        destruct (serve_one st p (filter (reported st) (map fst es)) k fd (v_mgr v) m (v_sock v) ks (v_data v) (v_src v) q S I O Ro Ns Op Q) as (st1 & E1 & Sh & St & Lg & Q1 & Q2).
        rewrite E1. cbn [length repeat asteps]. exists st1. eexists. split; [reflexivity|]. split; [exact St|]. split; [exact Lg|]. split; [exact Sh|].
        assert (S1 : sound st1) by (eapply sound_shape; [exact S|assumption]).
        destruct (rest_same st st1 fd (v_mgr v) (v_sock v) es S S1 Sh I (ex_intro _ m (conj O Ro)) Q2 In2 N1) as [R1 R2].
        intros w W. assert (X : In (as_waiting w) (flat_map (first_of st1) es)) by (rewrite R2, E; apply in_map; exact W).
        apply in_flat_map in X as ([g y] & J & X). assert (Jy : In (g, y) (smap st1)) by (destruct Sh as (_ & M & _); rewrite M; apply In2; exact J).
        destruct (first_cases st1 g y S1 Jy) as [[F1 _]|(m1 & s1 & k1 & x1 & q1 & F1 & _)]; rewrite F1 in X; [destruct X|]. destruct X as [X|[]]. injection X as X1 X2 X3. subst y.
        exists g. split; [exact Jy|]. rewrite F1. left. unfold as_waiting. rewrite X2, X3. reflexivity.
      * cbn [app map] in E. injection E as Eo Es Ex E. subst o s x.
        destruct (serve_one st p (filter (reported st) (map fst es)) k fd (v_mgr u) m (v_sock u) ks (v_data u) (v_src u) q S I O Ro Ns Op Q) as (st1 & E1 & Sh & St & Lg & Q1 & Q2).
        rewrite E1. cbn [length repeat asteps astep]. rewrite St. set (st2 := say st1 (ECbEnd (v_mgr u) (Ok tt))).
        assert (Sh2 : same_shape st st2) by exact Sh. assert (S2 : sound st2) by (eapply sound_shape; [exact S|assumption]).
        assert (Q2' : forall t, t <> v_sock u -> queued st2 t = queued st t) by exact Q2.
        destruct (rest_same st st2 fd (v_mgr u) (v_sock u) es S S2 Sh2 I (ex_intro _ m (conj O Ro)) Q2' In2 N1) as [R1 R2].
        rewrite <- R1. destruct (IH st2 l1 S2) as (st' & rest & A & B & C & D & W).
        { destruct Sh2 as (_ & M & _). rewrite M. exact In2. } { exact N2. } { rewrite R2. exact E. }
        exists st', rest. split; [exact A|]. split; [exact B|]. split; [|split; [eapply same_trans; eassumption|exact W]]. rewrite C. unfold st2. cbn [say alog]. rewrite Lg. cbn [flat_map]. unfold served at 2, handed. rewrite <- !app_assoc. reflexivity.
Qed.
Lemma first_say st e : first_of (say st e) = first_of st. Proof. reflexivity. Qed.
Lemma reported_say st e : reported (say st e) = reported st. Proof. reflexivity. Qed.
Theorem poll_serves tr st p l : aexec tr = Some st -> never_handle_close tr -> auser (astack st) = true -> obj st p <> None -> waiting st = map as_waiting l ->
  exists st', asteps st (APoll p :: repeat AReturn (length l)) = Some st' /\ astack st' = astack st /\ alog st' = alog st ++ EPoll p :: flat_map served l ++ [EPollEnd p (Ok tt)].
Proof.
  intros E NH U O W. pose proof (aexec_sound tr NH st E) as S. cbn [asteps astep]. unfold with_obj. rewrite U. destruct (obj st p) as [m|]; [|contradiction].
  unfold apoll. rewrite (all_open st S). rewrite <- (reported_say st (EPoll p)).
  destruct (serve_all p (astack st) (smap st) (say st (EPoll p)) l) as (st' & A & B & C & _); [exact (sound_shape _ _ S (shape_say _ _))|apply incl_refl|apply (h_nodup _ S)|exact W|].
  exists st'. split; [exact A|]. split; [exact B|]. rewrite C. cbn [say alog]. rewrite <- app_assoc. reflexivity.
Qed.
Theorem poll_interrupted tr st p l1 v l2 e : aexec tr = Some st -> never_handle_close tr -> auser (astack st) = true -> obj st p <> None -> waiting st = map as_waiting (l1 ++ v :: l2) -> e <> ValueError ->
  exists st', asteps st (APoll p :: repeat AReturn (length l1) ++ [ARaise e]) = Some st' /\ astack st' = astack st /\
    alog st' = alog st ++ EPoll p :: flat_map served l1 ++ handed v ++ [ECbEnd (v_mgr v) (Err e); EPollEnd p (Err e)] /\ incl (map as_waiting l2) (waiting st').
Proof.
  intros E NH U O W NE. pose proof (aexec_sound tr NH st E) as S. cbn [asteps astep]. unfold with_obj. rewrite U. destruct (obj st p) as [m|]; [|contradiction].
  unfold apoll. rewrite (all_open st S). rewrite <- (reported_say st (EPoll p)).
  destruct (serve_until p (astack st) v l2 (smap st) (say st (EPoll p)) l1) as (st' & rest & A & B & C & D & F); [exact (sound_shape _ _ S (shape_say _ _))|apply incl_refl|apply (h_nodup _ S)|exact W|].
  rewrite asteps_app, A. cbn [asteps astep]. rewrite B. eexists. split; [reflexivity|].
  assert (X : read_error (say st' (ECbEnd (v_mgr v) (Err e))) p rest (astack st) (v_mgr v) e = poll_end (say st' (ECbEnd (v_mgr v) (Err e))) p (astack st) (Err e)) by (destruct e; try reflexivity; contradiction).
  rewrite X. split; [reflexivity|]. split; [cbn [poll_end say set_stack alog]; rewrite C; cbn [say alog]; repeat (rewrite <- !app_assoc; cbn [app]); reflexivity|].
  intros z Z. apply in_map_iff in Z as (w & <- & Z). destruct (F w Z) as (g & J & K). rewrite waiting_eq. apply in_flat_map. exists (g, v_mgr w). auto.
Qed.

(** ** No hanging *)
Definition due (st : astate) (rest : list Z) : Prop := NoDup rest /\ forall fd, In fd rest -> In fd (map fst (smap st)) -> reported st fd = true.
Definition not_hung (st : astate) : Prop := match astack st with [] => True | [FCallback _ _; FPolling _ rest] => due st rest | _ => False end.
Lemma due_less st fd rest : due st (fd :: rest) -> due st rest.
Proof. intros [N H]. inversion N; subst. split; [assumption|]. intros g G. apply H. right. exact G. Qed.
(** A state with the same sockets, but longer queues and fewer entries. *)
Definition grown (st st' : astate) : Prop := incl (smap st') (smap st) /\
  forall fd, In fd (map fst (smap st')) -> reported st fd = true -> reported st' fd = true.
Lemma due_grown st st' rest : due st rest -> grown st st' -> due st' rest.
Proof.
  intros [N H] [A B]. split; [exact N|]. intros fd G M. apply B; [exact M|]. apply H; [exact G|]. apply in_map_iff in M as ([g y] & <- & M). apply in_map_iff. exists (g, y). auto.
Qed.
Lemma read_error_hung st p rest o e : due st rest -> not_hung (read_error st p rest [] o e).
Proof. intros D. destruct e; exact Logic.I || exact D. Qed.
Lemma serve_hung rest : forall st p, sound st -> due st rest -> not_hung (serve st p rest []).
Proof.
  induction rest as [|fd rest IH]; intros st p S D; [exact Logic.I|]. cbn [serve]. destruct (map_get (smap st) fd) as [o|] eqn:G; [|apply IH; [exact S|eapply due_less; exact D]].
  apply map_get_in in G. assert (R : reported st fd = true) by (apply D; [left; reflexivity|apply in_map_iff; exists (fd, o); auto]).
  destruct (first_cases st fd o S G) as [[_ R']|(m & s & ks & x & q & _ & _ & O & Ro & Ns & Op & Q)]; [congruence|].
  unfold handle_read. rewrite O, Ro, Ns, Op, Q.
  assert (Sh : same_shape st (set_queue st s q)) by apply shape_queue. assert (S1 : sound (set_queue st s q)) by (eapply sound_shape; [exact S|assumption]).
  assert (D1 : due (set_queue st s q) rest).
  { destruct D as [N H]. inversion N as [|? ? N1 N2]; subst. split; [exact N2|]. intros g Gg M. pose proof Sh as (_ & Sm & _). rewrite Sm in M.
    apply in_map_iff in M as ([g' y] & Eg & M). cbn in Eg. subst g'. rewrite (reported_same st _ g y S S1 Sh M).
    - apply H; [right; exact Gg|apply in_map_iff; exists (g, y); auto].
    - intros m' s' O' R'. assert (Ne : s <> s'). { eapply (entries_differ st fd o g y); try eassumption. intros ->. contradiction. }
      unfold queued, set_queue. rewrite Ns. cbn [socks]. rewrite nth_upd. destruct (Nat.eqb_spec s s'); [contradiction|reflexivity]. }
  unfold got. destruct x as [[d a]|e]; [exact D1|]. apply read_error_hung. exact D1.
Qed.
Lemma reported_upd st s k k' st' : nth_error (socks st) s = Some k -> descr k' = descr k -> (k_queue k <> [] -> k_queue k' <> []) -> socks st' = upd (socks st) s k' ->
  forall fd, reported st fd = true -> reported st' fd = true.
Proof.
  intros N D Q E fd. unfold reported, at_fd. rewrite E. unfold descr in D. injection D as D1 D2. clear E. revert s N. induction (socks st) as [|y l IH]; intros [|s] N; try discriminate; cbn in *.
  - injection N as ->. rewrite D1, D2. destruct (k_open k && (k_fd k =? fd)); [|auto]. destruct (k_queue k); [discriminate|]. intros _. destruct (k_queue k'); [elim Q; [discriminate|reflexivity]|reflexivity].
  - destruct (k_open y && (k_fd y =? fd)); [auto|]. apply IH. exact N.
Qed.
Lemma aclose_facts st o m r : obj st o = Some m -> let st' := aclose st o m r in
  astack st' = astack st /\ incl (smap st') (smap st) /\ (forall s, queued st' s = queued st s) /\
  forall y m', obj st' y = Some m' -> exists m1, obj st y = Some m1 /\ a_role m' = a_role m1.
Proof.
  intros O. cbv zeta. unfold aclose.
  set (st1 := match a_fileno m with Some fd => set_map st (map_del (smap st) fd) | None => st end).
  assert (Y : astack st1 = astack st /\ incl (smap st1) (smap st) /\ socks st1 = socks st /\ objs st1 = objs st).
  { unfold st1. destruct (a_fileno m) as [fd|]; [|repeat split; apply incl_refl]. repeat split. intros [g y] J. eapply map_del_in. exact J. }
  destruct Y as (Y1 & Y2 & Y3 & Y4). clearbody st1.
  set (st2 := set_obj st1 o (mkA (a_role m) (a_socket m) None (a_interface m))).
  assert (Z : forall y m', obj st2 y = Some m' -> exists m1, obj st y = Some m1 /\ a_role m' = a_role m1).
  { intros y m'. unfold obj, st2, set_obj in *. cbn [objs]. rewrite nth_upd, Y4. destruct (Nat.eqb_spec o y) as [<-|].
    - destruct (nth_error (objs st) o) as [m0|]; [|discriminate]. intros H. injection H as <-. exists m. auto.
    - intros H. exists m'. auto. }
  assert (W : astack st2 = astack st /\ incl (smap st2) (smap st) /\ socks st2 = socks st) by auto. clearbody st2. destruct W as (W1 & W2 & W3).
  destruct (kclose st2 (a_socket m) r) as [st3 r3] eqn:K. unfold kclose in K.
  assert (V : astack st3 = astack st2 /\ smap st3 = smap st2 /\ objs st3 = objs st2 /\ forall s, queued st3 s = queued st2 s).
  { destruct (nth_error (socks st2) (a_socket m)) as [k|] eqn:N; [destruct (k_open k)|]; injection K as <- <-; try (repeat split; fail).
    unfold set_open. rewrite N. repeat split. intros s. unfold queued. cbn [socks]. rewrite nth_upd. destruct (Nat.eqb_spec (a_socket m) s) as [<-|]; [rewrite N|]; reflexivity. }
  destruct V as (V1 & V2 & V3 & V4). cbn [say astack smap]. rewrite V1, V2. split; [exact W1|]. split; [exact W2|]. split.
  - intros s. transitivity (queued st3 s); [reflexivity|]. rewrite V4. unfold queued. rewrite W3. reflexivity.
  - intros y m' H. apply Z. unfold obj in *. cbn [say objs] in H. rewrite V3 in H. exact H.
Qed.
Theorem never_hangs tr : never_handle_close tr -> calm_callbacks tr -> forall st, aexec tr = Some st -> not_hung st.
Proof.
  induction tr as [|l tr IH] using rev_ind; intros NH Ca st E; [injection E as <-; exact Logic.I|].
  pose proof (aexec_sound _ NH st E) as S'. unfold aexec in E. rewrite asteps_app in E. destruct (asteps ainit tr) as [st0|] eqn:E0; [|discriminate]. cbn [asteps] in E. destruct (astep st0 l) as [st1|] eqn:E1; [|discriminate]. injection E as <-.
  assert (NH0 : never_handle_close tr) by (intros o r I; apply (NH o r), in_or_app; auto).
  assert (S : sound st0) by (apply (aexec_sound tr NH0); exact E0).
  assert (H0 : not_hung st0).
  { apply IH; [exact NH0| |exact E0]. split; intros tr1 l' tr2 st Q X Y; [apply (proj1 Ca tr1 l' (tr2 ++ [l]) st)|apply (proj2 Ca tr1 l' (tr2 ++ [l]) st)]; try exact X; try exact Y; rewrite Q, <- app_assoc; reflexivity. }
  pose proof (proj1 Ca tr l [] st0 eq_refl E0) as Cl. pose proof (proj2 Ca tr l [] st0 eq_refl E0) as Cn.
  assert (Kg : forall st', astack st' = astack st0 -> grown st0 st' -> not_hung st').
  { intros st' A G. unfold not_hung in *. rewrite A. destruct (astack st0) as [|[| |] [|[| |] [|]]]; auto. eapply due_grown; eassumption. }
  destruct l as [cb i op fd|o q dst op fd r|o|o r|o r| |e|s x]; cbn [astep] in E1.
  - destruct (auser (astack st0)) eqn:U; [|discriminate]. destruct (fd_free st0 fd); [|discriminate]. cbn in E1. injection E1 as <-.
    destruct (astack st0) as [|f k] eqn:Es; [|exfalso; apply Cn; [discriminate|exact Logic.I]].
    assert (X : astack (anew st0 cb i op fd) = []); [|unfold not_hung; rewrite X; exact Logic.I].
    unfold anew. destruct cb as [[|]| |]; try exact Es. unfold kopen. destruct (o_socket op); [|exact Es]. destruct (o_bind op); [|exact Es]. destruct (o_option op); exact Es.
  - destruct (fd_free st0 fd); [|discriminate]. unfold with_obj in E1. destruct (auser (astack st0)); [|discriminate]. destruct (obj st0 o) as [m|] eqn:O; [|discriminate]. injection E1 as <-.
    unfold asend in *. rewrite (h_role _ S o m O). destruct (nth_error (socks st0) (a_socket m)) as [k|]; [|exact H0]. destruct (k_open k); [destruct r|]; (apply Kg; [reflexivity|split; [apply incl_refl|auto]]).
  - unfold with_obj in E1. destruct (auser (astack st0)); [|discriminate]. destruct (obj st0 o) as [m|] eqn:O; [|discriminate]. injection E1 as <-.
    destruct (astack st0) as [|f k] eqn:Es; [|exfalso; apply Cl; [discriminate|exact Logic.I]].
    unfold apoll. rewrite (all_open st0 S), Es. apply serve_hung; [exact (sound_shape _ _ S (shape_say _ _))|]. split; [apply NoDup_filter; apply (h_nodup _ S)|]. intros g G _. apply filter_In in G as [_ G]. exact G.
  - elim (NH o r). apply in_or_app. right. left. reflexivity.
  - unfold with_obj in E1. destruct (auser (astack st0)); [|discriminate]. destruct (obj st0 o) as [m|] eqn:O; [|discriminate]. injection E1 as <-.
    destruct (aclose_facts st0 o m r O) as (X1 & X2 & X3 & X4). cbv zeta in *. apply Kg; [exact X1|]. split; [exact X2|]. intros g G Rp. apply in_map_iff in G as ([g' y] & Eg & G). cbn in Eg. subst g'.
    destruct (entry st0 g y S (X2 _ G)) as (m1 & s1 & k1 & A1 & A2 & A3 & A4 & A5 & A6 & A7 & A8).
    destruct (entry _ g y S' G) as (m2 & s2 & k2 & B1 & B2 & B3 & B4 & B5 & B6 & B7 & B8).
    destruct (X4 y m2 B1) as (m3 & C1 & C2). assert (Es : s2 = s1) by congruence. subst s2. rewrite B7, <- B6, X3, A6, <- A7. exact Rp.
  - unfold not_hung in H0. destruct (astack st0) as [|[p0 r0|o ie|o s] [|[p rest|o' ie'|o' s'] k]] eqn:Es; try discriminate. destruct k; [|destruct H0]. injection E1 as <-.
    apply serve_hung; [eapply sound_shape; [exact S|apply shape_say]|exact H0].
  - unfold not_hung in H0. destruct (astack st0) as [|[p0 r0|o ie|o s] [|[p rest|o' ie'|o' s'] k]] eqn:Es; try discriminate. destruct k; [|destruct H0]. injection E1 as <-.
    destruct ie; [exact Logic.I|]. apply read_error_hung. exact H0.
  - destruct (nth_error (socks st0) s) as [ks|] eqn:K; [|discriminate]. destruct (k_open ks) eqn:Op; [|discriminate].
    assert (X : not_hung (set_queue (say st0 (EArrive s x)) s (k_queue ks ++ [x]))).
    { apply Kg; [unfold set_queue; cbn [say socks]; rewrite K; reflexivity|]. split; [unfold set_queue; cbn [say socks]; rewrite K; apply incl_refl|].
      intros g _. apply (reported_upd st0 s ks (mkK (k_fd ks) (k_open ks) (k_queue ks ++ [x]))); [exact K|reflexivity| |unfold set_queue; cbn [say socks]; rewrite K; reflexivity].
      intros _. cbn [k_queue]. destruct (k_queue ks); discriminate. }
    unfold not_hung in H0. destruct (astack st0) as [|[p0 r0|o ie|o s0] [|[p rest|o' ie'|o' s'] k]] eqn:Es; try (destruct H0; fail); injection E1 as <-; exact X.
Qed.
