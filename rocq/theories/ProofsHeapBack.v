(** * Answers on the heap: the entry that is deleted after the callback, and the entries that stay *)
From Coq Require Import ZArith List Bool Lia.
From Verif Require Import PyBase Classes Values Codec Manager Heap SpecHeap ProofsHeap ProofsHeapKeep ProofsHeapCall ProofsHeapRun ProofsHeapMake ProofsHeapFixed ProofsHeapRecv ProofsHeapEnd.
Import ListNotations.
Open Scope Z_scope.

Lemma e_get_split f h d n cb : e_get f h d n = Some cb -> exists l1 e l2, d = l1 ++ e :: l2 /\ e_del f h d n = l1 ++ l2 /\ e_hash e = n /\ e_cb e = cb /\ matches f h n e = true.
Proof.
  induction d as [|e d IH]; cbn [e_get e_del]; [discriminate|]. destruct (matches f h n e) eqn:M.
  - intros X. injection X as <-. exists [], e, d. repeat split; auto. unfold matches in M. apply andb_prop in M as [M _]. apply Z.eqb_eq in M. exact M.
  - intros X. destruct (IH X) as (l1 & e0 & l2 & -> & -> & A). exists (e :: l1), e0, l2. split; [reflexivity|]. split; [reflexivity|exact A].
Qed.
Lemma e_get_matches f h d n e : In e d -> matches f h n e = true -> exists cb, e_get f h d n = Some cb.
Proof.
  induction d as [|e0 d IH]; cbn [e_get]; [intros []|]. intros [->|J] M; [rewrite M; eauto|]. destruct (matches f h n e0); eauto.
Qed.

Lemma received_fresh sys s depth d id cb msg : good s ->
  Manager.receiveData sys (mkMgr (h_next s) [] (e_abs (flav sys) (hp s) (h_cbs s))) depth d = (InvokeResponse id cb, Some msg) ->
  exists s1 m p r, gstep sys s (LReceive depth d) = Some s1 /\ h_log s1 = h_log s ++ [GInvoked cb (IRef m)] /\ h_stack s1 = InResponse (IRef m) :: h_stack s /\
    h_cbs s1 = h_cbs s /\ h_out s1 = h_out s /\ known s1 = m :: known s /\
    (length (hp s) <= m)%nat /\ (length (hp s) <= p)%nat /\ (length (hp s) <= r)%nat /\ stands (fun l => (length (hp s) <= l)%nat) (fun _ _ => False) (hp s1) (IRef m) (message_val msg) /\
    attr_of (hp s1) (IRef m) Adata = Ok (IRef p) /\ attr_of (hp s1) (IRef p) ArequestID = Ok (IRef r) /\ (exists c, nth_error (hp s1) r = Some (PObj c [(Avalue, IInt id)]) /\ kind_of c = KInt) /\
    (exists c dd, nth_error (hp s1) m = Some (PObj c dd)) /\ (exists c dd, nth_error (hp s1) p = Some (PObj c dd)).
Proof.
  intros Gs E. destruct (response_shape _ _ _ _ _ _ _ E) as (Dc & c & k & rest & Em & Cp & _). destruct (fit_message _ _ _ _ _ Dc) as (Mc & F1 & F2 & F3).
  destruct (made_message_object (length (hp s)) (hp s) msg eq_refl) as (t & n & dd & Hm & St & Ad & Ln & (d1 & Nn) & Pp); [rewrite Mc; apply kind_message|assumption|assumption|assumption|].
  destruct (Pp c k id rest Em Cp) as (p & r & -> & Ar & Nr & Kr & (d2 & Np) & Lp & Lr).
  eexists. exists n, p, r. split; [cbn [gstep]; unfold g_receive; rewrite E, Hm; reflexivity|]. cbn.
  repeat (split; [first [reflexivity|assumption|exists k; split; assumption|exists (m_cls msg), d1; exact Nn]|]). exists c, d2. exact Np.
Qed.

(** What is deleted when the callback returns and has not touched the id in its message. *)
Lemma own_entry sys s depth d id cb msg : good s ->
  Manager.receiveData sys (mkMgr (h_next s) [] (e_abs (flav sys) (hp s) (h_cbs s))) depth d = (InvokeResponse id cb, Some msg) ->
  exists s1 m p r, gstep sys s (LReceive depth d) = Some s1 /\ h_log s1 = h_log s ++ [GInvoked cb (IRef m)] /\ h_stack s1 = InResponse (IRef m) :: h_stack s /\
    attr_of (hp s1) (IRef m) Adata = Ok (IRef p) /\ attr_of (hp s1) (IRef p) ArequestID = Ok (IRef r) /\
    forall tr s2 s3 k, gsteps sys s1 tr = Some s2 -> never_written m tr -> never_written p tr -> never_written r tr -> h_stack s2 = InResponse (IRef m) :: k -> gstep sys s2 UReturn = Some s3 ->
      match e_get (flav sys) (hp s2) (h_cbs s2) id with
      | Some _ => h_log s3 = h_log s2 ++ [GDeleted id; GReceived (Ok tt)] /\ exists l1 e l2, h_cbs s2 = l1 ++ e :: l2 /\ h_cbs s3 = l1 ++ l2 /\ e_hash e = id
      | None => h_log s3 = h_log s2 ++ [GReceived (guard (flav sys) (Err KeyError))] /\ h_cbs s3 = h_cbs s2
      end.
Proof.
  intros Gs E. destruct (received_fresh sys s depth d id cb msg Gs E) as (s1 & m & p & r & E1 & Lg & Sk & Cb & Ou & _ & Lm & Lp & Lr & _ & Am & Ap & (c & Nr & Kc) & (cm & dm & Nm) & (cp & dp & Np)).
  exists s1, m, p, r. repeat (split; [assumption|]). intros tr s2 s3 k Es Wm Wp Wr Sk2 E3.
  destruct (good_step sys s _ s1 Gs E1) as (G1 & [Le _] & _).
  destruct (run_keep sys D (fun x => x = m \/ x = p \/ x = r) tr s1 s2) as (I2 & [_ Kp] & _).
  - apply G1.
  - intros x [->|[->| ->]]; eauto.
  - rewrite Ou. destruct Gs as (_ & Q & _). eapply Forall_impl; [|exact Q]. intros q Hq x Ex. destruct (Hq x Ex) as (A & B & _). split; [lia|]. split; [exact B|]. intros [->|[->| ->]]; lia.
  - intros x c0 J [->|[->| ->]]; [eapply Wm|eapply Wp|eapply Wr]; exact J.
  - exact Es.
  - assert (Am2 : attr_of (hp s2) (IRef m) Adata = Ok (IRef p)) by (unfold attr_of in *; rewrite Kp by auto; exact Am).
    assert (Ap2 : attr_of (hp s2) (IRef p) ArequestID = Ok (IRef r)) by (unfold attr_of in *; rewrite Kp by auto; exact Ap).
    assert (Nr2 : nth_error (hp s2) r = Some (PObj c [(Avalue, IInt id)])) by (rewrite Kp by auto; exact Nr).
    assert (Kn : key_num (flav sys) (hp s2) (IRef r) = Ok id).
    { unfold key_num, is_a, class_at. rewrite Nr2. replace (issubclass c CInteger) with true by (destruct c; try discriminate Kc; reflexivity).
      rewrite (attr_at _ _ _ _ Avalue (IInt id) Nr2 eq_refl). cbn [bind]. destruct (flav sys); reflexivity. }
    cbn [gstep] in E3. rewrite Sk2 in E3. injection E3 as <-. unfold g_return. cbn [hp with_stack h_cbs]. rewrite Am2. cbn [bind]. rewrite Ap2. cbn [bind]. rewrite Kn.
    destruct (e_get (flav sys) (hp s2) (h_cbs s2) id) as [cb'|] eqn:Eg; [|split; reflexivity].
    split; [reflexivity|]. destruct (e_get_split _ _ _ _ _ Eg) as (l1 & e & l2 & A & B & C & _). exists l1, e, l2. cbn. rewrite B. auto.
Qed.

(** Entries stay until deleted under their own number. *)
Lemma e_set_keeps f h d n k cb e : In e d -> exists e', In e' (e_set f h d n k cb) /\ e_hash e' = e_hash e /\ e_key e' = e_key e.
Proof.
  induction d as [|e0 d IH]; [intros []|]. cbn [e_set]. intros [->|J]; destruct (matches f h n _) eqn:M.
  - eexists. split; [left; reflexivity|]. auto.
  - exists e. split; [left; reflexivity|]. auto.
  - exists e. split; [right; exact J|]. auto.
  - destruct (IH J) as (e' & J' & A). exists e'. split; [right; exact J'|exact A].
Qed.
Lemma e_del_keeps f h d n e : In e d -> e_hash e <> n -> In e (e_del f h d n).
Proof.
  induction d as [|e0 d IH]; [intros []|]. cbn [e_del]. intros [->|J] Ne.
  - replace (matches f h n e) with false; [left; reflexivity|]. unfold matches. rewrite (proj2 (Z.eqb_neq _ _) Ne). reflexivity.
  - destruct (matches f h n e0); [exact J|right; auto].
Qed.
Lemma step_log sys s l s' : good s -> gstep sys s l = Some s' -> exists ev, h_log s' = h_log s ++ ev.
Proof. intros Gs E. destruct (good_step sys s l s' Gs E) as (_ & _ & M). destruct M as [fuel m dst r _ _ X _|q ev _ _ X _ _]; eauto. Qed.
Lemma step_entries sys s l s' e : good s -> gstep sys s l = Some s' -> In e (h_cbs s) -> (forall ev, h_log s' = h_log s ++ ev -> ~ In (GDeleted (e_hash e)) ev) ->
  exists e', In e' (h_cbs s') /\ e_hash e' = e_hash e /\ e_key e' = e_key e.
Proof.
  intros Gs E J Nd. assert (SAME : h_cbs s' = h_cbs s -> exists e', In e' (h_cbs s') /\ e_hash e' = e_hash e /\ e_key e' = e_key e) by (intros X; rewrite X; exists e; auto).
  destruct l as [c0|x0|x0 c0|a|fuel|depth d| |ex]; cbn [gstep] in E.
  - destruct (knows _ _); [|discriminate]. injection E as <-. apply SAME. reflexivity.
  - destruct (knows _ _); [|discriminate]. destruct (nth_error (hp s) x0); [|discriminate]. injection E as <-. apply SAME. reflexivity.
  - destruct (knows _ _); [|discriminate]. injection E as <-. apply SAME. reflexivity.
  - destruct (knows s (flat_map item_refs (call_items a))) eqn:K; [|discriminate].
    assert (F : Forall (fine D (hp s)) (call_items a)) by (apply knows_items; [apply Gs|exact K]).
    destruct (request_of a) as [[dst cb]|] eqn:R.
    + pose proof (request_ok D s (flav sys) a dst cb (i_ok _ _ (proj1 Gs)) (i_defaults _ _ (proj1 Gs)) F R) as (_ & _ & _ & _ & Q). destruct (g_call (flav sys) a s) as [s1 r]. cbn [fst snd] in *. injection E as <-.
      destruct r as [i|ex]; [|apply SAME; cbn; apply Q]. destruct Q as (n & x & d0 & z & -> & _ & _ & _ & _ & _ & _ & Cb). cbn. rewrite Cb. apply e_set_keeps. exact J.
    + pose proof (call_cbs (flav sys) a s (i_ok _ _ (proj1 Gs)) (i_defaults _ _ (proj1 Gs)) F R) as X. destruct (g_call (flav sys) a s) as [s1 r]. injection E as <-. apply SAME. exact X.
  - destruct (h_out s) as [|[m dst] q]; [discriminate|]. destruct (h_encode_message fuel m (hp s)). injection E as <-. apply SAME. reflexivity.
  - injection E as <-. apply SAME. unfold g_receive. destruct (Manager.receiveData sys _ depth d) as [[r|id cb|cb] om]; [reflexivity| |]; (destruct om as [msg|]; [|reflexivity]; destruct (h_make_message msg (hp s)) as [h [m|]]; reflexivity).
  - destruct (h_stack s) as [|[m|m] k]; [discriminate| |]; injection E as <-; [|apply SAME; reflexivity]. unfold g_return in *. cbn [hp with_stack h_cbs] in *.
    destruct (d <- _ ;; _) as [n|]; [|apply SAME; reflexivity]. destruct (e_get _ _ _ n); [|apply SAME; reflexivity]. exists e. split; [|auto]. cbn. apply e_del_keeps; [exact J|].
    intros <-. eapply Nd; [reflexivity|left; reflexivity].
  - destruct (h_stack s); [discriminate|]. injection E as <-. apply SAME. reflexivity.
Qed.
Lemma run_log sys : forall tr s s', good s -> gsteps sys s tr = Some s' -> exists ev, h_log s' = h_log s ++ ev.
Proof.
  induction tr as [|l tr IH]; intros s s' Gs E; cbn [gsteps] in E; [injection E as <-; exists []; symmetry; apply app_nil_r|]. destruct (gstep sys s l) as [s1|] eqn:E1; [|discriminate].
  destruct (step_log sys s l s1 Gs E1) as (ev & X). destruct (IH s1 s') as (ev' & X'); [eapply good_step; eassumption|exact E|]. exists (ev ++ ev'). rewrite X', X, app_assoc. reflexivity.
Qed.
Lemma run_entries sys : forall tr s s' e ev, good s -> gsteps sys s tr = Some s' -> In e (h_cbs s) -> h_log s' = h_log s ++ ev -> ~ In (GDeleted (e_hash e)) ev ->
  exists e', In e' (h_cbs s') /\ e_hash e' = e_hash e /\ e_key e' = e_key e.
Proof.
  induction tr as [|l tr IH]; intros s s' e ev Gs E J L Nd; cbn [gsteps] in E; [injection E as <-; exists e; auto|]. destruct (gstep sys s l) as [s1|] eqn:E1; [|discriminate].
  assert (G1 : good s1) by (eapply good_step; eassumption). destruct (step_log sys s l s1 Gs E1) as (ev1 & X1). destruct (run_log sys tr s1 s' G1 E) as (ev2 & X2).
  assert (ev = ev1 ++ ev2) as ->. { apply (app_inv_head (h_log s)). rewrite <- L, X2, X1, app_assoc. reflexivity. }
  destruct (step_entries sys s l s1 e Gs E1 J) as (e1 & J1 & A1 & B1). { intros ev' X'. rewrite X1 in X'. apply app_inv_head in X'. subst ev'. intros Y. apply Nd. apply in_or_app. auto. }
  destruct (IH s1 s' e1 ev2 G1 E J1 X2) as (e2 & J2 & A2 & B2). { rewrite A1. intros Y. apply Nd. apply in_or_app. auto. }
  exists e2. split; [exact J2|]. split; congruence.
Qed.
Lemma plain_matches f h e : e_key e = IInt (e_hash e) -> matches f h (e_hash e) e = true.
Proof. intros K. unfold matches. rewrite K. cbn [key_num]. rewrite Z.eqb_refl. reflexivity. Qed.

Lemma gsteps_app sys a : forall b s s1 s2, gsteps sys s a = Some s1 -> gsteps sys s1 b = Some s2 -> gsteps sys s (a ++ b) = Some s2.
Proof. induction a as [|l a IH]; intros b s s1 s2 E1 E2; cbn [gsteps app] in *; [injection E1 as <-; exact E2|]. destruct (gstep sys s l); [|discriminate]. eapply IH; eassumption. Qed.
Lemma received_new sys s depth d act msg :
  Manager.receiveData sys (mkMgr (h_next s) [] (e_abs (flav sys) (hp s) (h_cbs s))) depth d = (act, Some msg) -> (forall r, act <> Done r) ->
  exists s1 m cb, gstep sys s (LReceive depth d) = Some s1 /\ h_log s1 = h_log s ++ [GInvoked cb (IRef m)] /\ known s1 = m :: known s /\ (length (hp s) <= m)%nat /\
    stands (fun l => (length (hp s) <= l)%nat) (fun _ _ => False) (hp s1) (IRef m) (message_val msg) /\
    forall x c, nth_error (hp s) x = Some c -> nth_error (hp s1) x = Some c.
Proof.
  intros E N. assert (Dc : message_decode (reg_of (imports sys)) depth (message_class (flav sys)) d = Ok msg).
  { unfold Manager.receiveData in E. destruct (message_decode _ _ _ d) as [m|]; [injection E as _ ->; reflexivity|discriminate]. }
  destruct (fit_message _ _ _ _ _ Dc) as (Mc & F1 & F2 & F3).
  destruct (made_message_object (length (hp s)) (hp s) msg eq_refl) as (t & n & dd & Hm & St & _ & Ln & _); [rewrite Mc; apply kind_message|assumption|assumption|assumption|].
  destruct act as [r|id cb|cb]; [exfalso; eapply N; reflexivity| |]; (eexists; exists n, cb; split; [cbn [gstep]; unfold g_receive; rewrite E, Hm; reflexivity|]; cbn;
    split; [reflexivity|]; split; [reflexivity|]; split; [exact Ln|]; split; [exact St|]; intros x c Nx; apply nth_ext; exact Nx).
Qed.
(** Default arguments *)
Lemma nth_at {A} (h : list A) k t c : nth_error t k = Some c -> nth_error (h ++ t) (length h + k) = Some c.
Proof. intros E. rewrite nth_error_app2 by lia. replace (length h + k - length h)%nat with k by lia. exact E. Qed.
Lemma default_truthy h t l : defaults_ok h -> (l < 5)%nat -> h_truthy (h ++ t) (IRef l) = Ok false /\ h_len (h ++ t) (IRef l) = Ok 0.
Proof. intros Df L. unfold h_truthy, h_len, list_at. cbn. rewrite (nth_ext h t l _ (Df l L)). split; reflexivity. Qed.
Lemma empty_seqof h t c k l : defaults_ok h -> (l < 5)%nat -> h_sequenceof c k (IRef l) (h ++ t) = (h ++ (t ++ [PList []; PObj c [(Avalue, IRef (length h + length t)%nat)]]), Ok (IRef (length h + S (length t))%nat)).
Proof.
  intros Df L. unfold h_sequenceof, hbind, rd, new. rewrite (proj1 (default_truthy h t l Df L)). cbn [bind]. rewrite <- !app_assoc, !app_length. cbn [length app]. repeat f_equal; lia.
Qed.
Lemma int_new h t c z : kind_of c = KInt -> MINVAL c <= z <= MAXVAL c -> h_integer c (IInt z) (h ++ t) = (h ++ (t ++ [PObj c [(Avalue, IInt z)]]), Ok (IRef (length h + length t)%nat)).
Proof.
  intros K R. unfold h_integer. replace ((MINVAL c <=? z) && (z <=? MAXVAL c)) with true by (symmetry; apply andb_true_intro; split; apply Z.leb_le; lia).
  unfold new. rewrite app_length, <- app_assoc. reflexivity.
Qed.
Lemma new_pdu1 h t c z : defaults_ok h -> MINVAL CInteger <= z <= MAXVAL CInteger -> let n := (length h + length t)%nat in
  h_pdu1 c (IInt z) (IInt 0) (IInt 0) default_pdu (h ++ t) = (h ++ (t ++ [PObj CInteger [(Avalue, IInt z)]; PObj CErrorStatus [(Avalue, IInt 0)]; PObj CInteger [(Avalue, IInt 0)]; PList []; PObj CVarBindList [(Avalue, IRef (n + 3)%nat)];
     PList [IRef n; IRef (n + 1)%nat; IRef (n + 2)%nat; IRef (n + 4)%nat]; 
     PObj c [(ArequestID, IRef n); (AerrorStatus, IRef (n + 1)%nat); (AerrorIndex, IRef (n + 2)%nat); (AvarBindList, IRef (n + 4)%nat); (Avalue, IRef (n + 5)%nat)]]), Ok (IRef (n + 6)%nat)).
Proof.
  intros Df R n. unfold h_pdu1, hbind. rewrite int_new by (reflexivity || assumption). rewrite int_new by (reflexivity || (split; vm_compute; discriminate)). rewrite int_new by (reflexivity || (split; vm_compute; discriminate)).
  unfold h_varbindlist, default_pdu. rewrite empty_seqof by (assumption || lia). unfold new. rewrite <- !app_assoc, !app_length. cbn [length app].   assert (Hn : (length h + length t)%nat = n) by reflexivity.
  repeat match goal with |- context [(length h + (length t + ?k))%nat] => replace (length h + (length t + k))%nat with (n + k)%nat by (unfold n; lia) end.
  repeat match goal with |- context [(length h + S (length t + ?k))%nat] => replace (length h + S (length t + k))%nat with (n + S k)%nat by (unfold n; lia) end.
  rewrite ?Hn. cbn [Nat.add]. reflexivity.
Qed.
Lemma new_list sys s two : defaults_ok (hp s) ->
  exists s' v l, gstep sys s (UCall (HNewVarBindList two None)) = Some s' /\ h_log s' = h_log s ++ [GReturned (Ok (IRef v))] /\ (length (hp s) <= v)%nat /\
    attr_of (hp s') (IRef v) Avalue = Ok (IRef l) /\ (length (hp s) <= l)%nat /\ nth_error (hp s') l = Some (PList []).
Proof.
  intros Df. cbn [gstep call_items flat_map knows forallb g_call]. unfold on_heap.
  assert (X : (if two then h_varbindlist2 (opt_item default_vbl2 None) else h_varbindlist (opt_item default_vbl None)) (hp s) =
    (hp s ++ [PList []; PObj (if two then CVarBindList_v2 else CVarBindList) [(Avalue, IRef (length (hp s) + 0)%nat)]], Ok (IRef (length (hp s) + 1)%nat))).
  { rewrite <- (app_nil_r (hp s)) at 1. destruct two.
    - unfold h_varbindlist2, hbind, rd. cbn [opt_item]. unfold default_vbl2. rewrite (proj2 (default_truthy (hp s) [] 2 Df ltac:(lia))). change (max_bindings <? 0) with false. cbv iota. rewrite empty_seqof by (assumption || lia). reflexivity.
    - unfold h_varbindlist. cbn [opt_item]. unfold default_vbl. rewrite empty_seqof by (assumption || lia). reflexivity. }
  rewrite X. eexists. exists (length (hp s) + 1)%nat, (length (hp s) + 0)%nat. split; [reflexivity|]. cbn. split; [reflexivity|]. split; [lia|].
  split; [eapply attr_at; [apply nth_at; reflexivity|reflexivity]|]. split; [lia|]. apply nth_at. reflexivity.
Qed.

Lemma new_pdu sys s c id : defaults_ok (hp s) -> In c [CGet; CGetNext; CSet; CResponse; CGet_v2; CGetNext_v2; CSet_v2; CResponse_v2; CInform; CTrapV2; CReport; CGetBulk] -> -2 ^ 31 <= id < 2 ^ 31 ->
  exists s' p v l, gstep sys s (UCall (HNewPDU c (IInt id) None)) = Some s' /\ h_log s' = h_log s ++ [GReturned (Ok (IRef p))] /\ (length (hp s) <= p)%nat /\
    attr_of (hp s') (IRef p) AvarBindList = Ok (IRef v) /\ (length (hp s) <= v)%nat /\ attr_of (hp s') (IRef v) Avalue = Ok (IRef l) /\ (length (hp s) <= l)%nat /\ nth_error (hp s') l = Some (PList []).
Proof.
  intros Df J R. cbn [gstep call_items flat_map item_refs knows forallb g_call app opt_item]. unfold on_heap.
  assert (X : exists t kp dp pc kv vc lc, (if issubclass c CBulkPDU then h_bulk c (IInt id) (IInt 0) (IInt 0) default_bulk else h_pdu c (IInt id) (IInt 0) (IInt 0) (default_of c)) (hp s) = (hp s ++ t, Ok (IRef (length (hp s) + kp)%nat)) /\
     nth_error t kp = Some (PObj pc dp) /\ assoc dp AvarBindList = Some (IRef (length (hp s) + kv)%nat) /\ nth_error t kv = Some (PObj vc [(Avalue, IRef (length (hp s) + lc)%nat)]) /\ nth_error t lc = Some (PList [])).
  { assert (R1 : MINVAL CInteger <= id <= MAXVAL CInteger) by (cbn; lia). assert (R2 : MINVAL CInteger32 <= id <= MAXVAL CInteger32) by (cbn; lia).
    assert (V1 : forall k, issubclass k CPDU_v2 = false -> exists t kp dp pc kv vc lc, h_pdu k (IInt id) (IInt 0) (IInt 0) (default_of k) (hp s) = (hp s ++ t, Ok (IRef (length (hp s) + kp)%nat)) /\
     nth_error t kp = Some (PObj pc dp) /\ assoc dp AvarBindList = Some (IRef (length (hp s) + kv)%nat) /\ nth_error t kv = Some (PObj vc [(Avalue, IRef (length (hp s) + lc)%nat)]) /\ nth_error t lc = Some (PList [])).
    { intros k Sk. unfold h_pdu, default_of. rewrite Sk. pose proof (new_pdu1 (hp s) [] k id Df R1) as P. rewrite app_nil_r in P. cbn [length app] in P. rewrite Nat.add_0_r in P. rewrite P.
      eexists. exists 6%nat. do 2 eexists. exists 4%nat. eexists. exists 3%nat. split; [reflexivity|]. repeat split; reflexivity. }
    assert (V2 : forall k, issubclass k CPDU_v2 = true -> exists t kp dp pc kv vc lc, h_pdu k (IInt id) (IInt 0) (IInt 0) (default_of k) (hp s) = (hp s ++ t, Ok (IRef (length (hp s) + kp)%nat)) /\
     nth_error t kp = Some (PObj pc dp) /\ assoc dp AvarBindList = Some (IRef (length (hp s) + kv)%nat) /\ nth_error t kv = Some (PObj vc [(Avalue, IRef (length (hp s) + lc)%nat)]) /\ nth_error t lc = Some (PList [])).
    { intros k Sk. unfold h_pdu, default_of. rewrite Sk. unfold h_pdu2, hbind. pose proof (new_pdu1 (hp s) [] k 0 Df ltac:(split; vm_compute; discriminate)) as P. rewrite app_nil_r in P. rewrite P. cbn [length app hlift not_above]. change (max_bindings <? 0) with false. cbn [hlift].
      rewrite int_new by (reflexivity || assumption). rewrite int_new by (reflexivity || (split; vm_compute; discriminate)). rewrite int_new by (reflexivity || (split; vm_compute; discriminate)).
      unfold h_varbindlist2, default_pdu2, hbind, rd. rewrite (proj2 (default_truthy (hp s) _ 3 Df ltac:(lia))). change (max_bindings <? 0) with false. cbv iota. rewrite empty_seqof by (assumption || lia). unfold new.
      rewrite <- !app_assoc, !app_length. cbn [length app]. 
      eexists. exists 13%nat. do 2 eexists. exists 11%nat. eexists. exists 10%nat. split; [reflexivity|]. repeat split; reflexivity. }
    cbn [In] in J. repeat destruct J as [<-|J]; [apply V1; reflexivity|apply V1; reflexivity|apply V1; reflexivity|apply V1; reflexivity|apply V2; reflexivity|apply V2; reflexivity|apply V2; reflexivity|apply V2; reflexivity|apply V2; reflexivity|apply V2; reflexivity|apply V2; reflexivity| |contradiction].
    change (issubclass CGetBulk CBulkPDU) with true. cbv iota. unfold h_bulk, hbind. cbn [not_above]. change (max_bindings <? 0) with false. cbn [hlift].
    pose proof (int_new (hp s) [] CInteger32 id eq_refl R2) as P. rewrite app_nil_r in P. rewrite P. rewrite int_new by (reflexivity || (split; vm_compute; discriminate)). rewrite int_new by (reflexivity || (split; vm_compute; discriminate)).
    unfold h_varbindlist2, default_bulk, hbind, rd. rewrite (proj2 (default_truthy (hp s) _ 4 Df ltac:(lia))). change (max_bindings <? 0) with false. cbv iota. rewrite empty_seqof by (assumption || lia). unfold new.
    rewrite <- !app_assoc, !app_length. cbn [length app]. 
    eexists. exists 6%nat. do 2 eexists. exists 4%nat. eexists. exists 3%nat. split; [reflexivity|]. repeat split; reflexivity. }
  destruct X as (t & kp & dp & pc & kv & vc & lc & X & N1 & A1 & N2 & N3). rewrite X. eexists. exists (length (hp s) + kp)%nat, (length (hp s) + kv)%nat, (length (hp s) + lc)%nat. split; [reflexivity|]. cbn.
  split; [reflexivity|]. split; [lia|]. split; [eapply attr_at; [apply nth_at; exact N1|exact A1]|]. split; [lia|]. split; [eapply attr_at; [apply nth_at; exact N2|reflexivity]|]. split; [lia|]. apply nth_at. exact N3.
Qed.
