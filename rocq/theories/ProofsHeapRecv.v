(** * Received messages: what decode() makes, as objects *)
From Coq Require Import ZArith List Bool Lia.
From Verif Require Import PyBase Classes Values Codec Manager Heap SpecHeap ProofsHeap ProofsHeapKeep ProofsHeapCall ProofsHeapRun ProofsHeapMake ProofsHeapValue.
Import ListNotations.
Open Scope Z_scope.

(** ** Decoded values have the classes their shape asks for *)
Definition starts_int (l : list val) : bool := match l with VInt _ _ :: _ => true | _ => false end.
Definition kind_eqb (a b : kind) : bool :=
  match a, b with KInt, KInt | KOct, KOct | KOid, KOid | KNull, KNull | KMsg, KMsg | KSeq, KSeq | KNothing, KNothing => true | _, _ => false end.
Fixpoint fit (v : val) : bool :=
  match v with
  | VInt c _ => kind_eqb (kind_of c) KInt
  | VOct c w => kind_eqb (kind_of c) KOct && fit w
  | VNull c => kind_eqb (kind_of c) KNull
  | VSeq c l => kind_eqb (kind_of c) KSeq && forallb fit l && (negb (issubclass c CPDU) || starts_int l)
  | VPyList l => forallb fit l
  | _ => true
  end.
Lemma kind_eqb_eq a b : kind_eqb a b = true -> a = b. Proof. destruct a, b; cbn; congruence. Qed.
Ltac ib H := match type of H with
  | bind ?x _ = Ok _ => let E := fresh "E" in destruct x as [?a|] eqn:E; cbn [bind] in H; [|discriminate H]; ib H
  | _ => idtac end.
Lemma fit_index l i x : forallb fit l = true -> py_index l i = Ok x -> fit x = true.
Proof.
  intros F. unfold py_index. destruct (_ || _); [discriminate|]. destruct (nth_error l _) eqn:E; [|discriminate]. intros H. injection H as <-.
  rewrite forallb_forall in F. apply F. eapply nth_error_In. exact E.
Qed.
Lemma fit_getitem v i x : fit v = true -> py_getitem v i = Ok x -> fit x = true.
Proof.
  destruct v as [| |s|l|c z|c w|[l|]|c|c l]; cbn [fit py_getitem]; intros F H; try discriminate.
  - ib H. injection H as <-. reflexivity.
  - eapply fit_index; eassumption.
  - ib H. injection H as <-. reflexivity.
  - apply andb_prop in F as [F _]. apply andb_prop in F as [_ F]. eapply fit_index; eassumption.
Qed.
Lemma fit_iter v l : fit v = true -> py_iter v = Ok l -> forallb fit l = true.
Proof.
  destruct v as [| |s|l'|c z|c w|[l'|]|c|c l']; cbn [fit py_iter]; intros F H; try discriminate; injection H as <-.
  - apply forallb_forall. intros x J. apply in_map_iff in J as (y & <- & _). reflexivity.
  - exact F.
  - apply forallb_forall. intros x J. apply in_map_iff in J as (y & <- & _). reflexivity.
  - apply andb_prop in F as [F _]. apply andb_prop in F as [_ F]. exact F.
Qed.
Lemma fit_build c item v : c = CVarBind \/ c = CVarBind_v2 -> fit item = true -> build_varbind c item = Ok v -> fit v = true.
Proof.
  intros C F H. unfold build_varbind in H. ib H. apply (fit_getitem _ _ _ F) in E. apply (fit_getitem _ _ _ F) in E0.
  unfold varbind_init in H. destruct (_ && _); [discriminate|]. destruct (_ && _); [discriminate|]. injection H as <-. cbn [fit forallb]. rewrite E, E0. destruct C as [->| ->]; reflexivity.
Qed.
Lemma fit_builds c l vs : c = CVarBind \/ c = CVarBind_v2 -> forallb fit l = true -> mapM (build_varbind c) l = Ok vs -> forallb fit vs = true.
Proof.
  intros C. revert vs. induction l as [|x l IH]; intros vs F H; cbn [mapM] in H; [injection H as <-; reflexivity|]. cbn [forallb] in F. apply andb_prop in F as [F1 F2].
  ib H. injection H as <-. cbn [forallb]. rewrite (fit_build _ _ _ C F1 E). cbn [andb]. eapply IH; [exact F2|reflexivity || eassumption].
Qed.
Lemma fit_int c z v : kind_of c = KInt -> integer_init c (VPyInt z) = Ok v -> fit v = true /\ starts_int [v] = true.
Proof. intros K H. apply int_init_ok in H as [-> _]. cbn. rewrite K. auto. Qed.
Lemma fit_seqof c k v w : kind_of c = KSeq -> issubclass c CPDU = false -> fit v = true -> sequenceof_init c k v = Ok w -> fit w = true.
Proof.
  intros K N F. unfold sequenceof_init. destruct (truthy v); [|intros H; injection H as <-; cbn [fit forallb]; rewrite K, N; reflexivity]. intros H. ib H. injection H as <-.
  apply appends_ok in E0 as [-> _]. apply (fit_iter _ _ F) in E. cbn [fit forallb app]. rewrite K, E, N. reflexivity.
Qed.
Lemma fit_pdu c a b d vl v : kind_of c = KSeq -> fit vl = true -> pdu_init c (VPyInt a) (VPyInt b) (VPyInt d) vl = Ok v -> fit v = true.
Proof.
  intros K F H. unfold pdu_init in H. destruct (issubclass c CPDU_v2).
  - unfold pdu_v2_init, gt_max_bindings in H. cbn [bind] in H. destruct (max_bindings <? d); [discriminate|]. ib H.
    unfold varbindlist_v2_init in E2. ib E2. destruct (max_bindings <? _); [discriminate|]. apply fit_seqof in E2; [|reflexivity|reflexivity|exact F].
    apply int_init_ok in E as [-> _]. apply int_init_ok in E0 as [-> _]. apply int_init_ok in E1 as [-> _]. injection H as <-. cbn [fit forallb starts_int]. rewrite K, E2, orb_true_r. reflexivity.
  - unfold pdu_v1_init in H. ib H. unfold varbindlist_init in E2. apply fit_seqof in E2; [|reflexivity|reflexivity|exact F].
    apply int_init_ok in E as [-> _]. apply int_init_ok in E0 as [-> _]. apply int_init_ok in E1 as [-> _]. injection H as <-. cbn [fit forallb starts_int]. rewrite K, E2, orb_true_r. reflexivity.
Qed.
Lemma fit_bulk c a b d vl v : kind_of c = KSeq -> fit vl = true -> bulkpdu_init c (VPyInt a) (VPyInt b) (VPyInt d) vl = Ok v -> fit v = true.
Proof.
  intros K F H. unfold bulkpdu_init, gt_max_bindings in H. cbn [bind] in H. destruct (max_bindings <? b); [discriminate|]. cbn [bind] in H. destruct (max_bindings <? d); [discriminate|]. ib H.
  unfold varbindlist_v2_init in E2. ib E2. destruct (max_bindings <? _); [discriminate|]. apply fit_seqof in E2; [|reflexivity|reflexivity|exact F].
  apply int_init_ok in E as [-> _]. apply int_init_ok in E0 as [-> _]. apply int_init_ok in E1 as [-> _]. injection H as <-. cbn [fit forallb starts_int]. rewrite K, E2, orb_true_r. reflexivity.
Qed.
Lemma fit_contents dec c data v : kind_of c <> KMsg -> (forall l, dec data = Ok l -> forallb fit l = true) -> decodeContents dec c data = Ok v -> fit v = true.
Proof.
  intros NM Hd. unfold decodeContents. destruct (decode_method c) as [dm|] eqn:M; [|discriminate].
  destruct dm; intros H; ib H; try (injection H as <-; cbn [fit]); try (destruct c; vm_compute in M; try discriminate M; reflexivity).
  - rewrite (Hd _ eq_refl), andb_true_r. destruct c; vm_compute in M; try discriminate M; try reflexivity; exfalso; apply NM; reflexivity.
  - pose proof (Hd _ eq_refl) as F. unfold pdu_of_objects in H. destruct a as [|o0 [|o1 [|o2 [|o3 [|]]]]]; try discriminate. cbn [forallb] in F. rewrite !andb_true_iff in F. destruct F as (F0 & F1 & F2 & F3 & _). ib H.
    apply fit_iter in E0; [|exact F3]. apply fit_builds in E1; [|auto|exact E0]. eapply fit_pdu; [| |exact H]; [|cbn [fit]; rewrite E1; reflexivity]. destruct c; vm_compute in M; try discriminate M; reflexivity.
  - pose proof (Hd _ eq_refl) as F. unfold trappdu_of_objects in H. destruct a as [|o0 [|o1 [|o2 [|o3 [|o4 [|o5 [|]]]]]]]; try discriminate. cbn [forallb] in F. rewrite !andb_true_iff in F. destruct F as (F0 & F1 & F2 & F3 & F4 & F5 & _). ib H.
    apply fit_iter in E0; [|exact F5]. apply fit_builds in E1; [|auto|exact E0]. apply fit_int in E3 as [E3 _]; [|reflexivity]. injection H as <-. unfold trappdu_init. cbn [fit forallb]. rewrite F0, F1, F3, F4, E1, E3. reflexivity.
  - pose proof (Hd _ eq_refl) as F. unfold bulkpdu_of_objects in H. destruct a as [|o0 [|o1 [|o2 [|o3 [|]]]]]; try discriminate. cbn [forallb] in F. rewrite !andb_true_iff in F. destruct F as (F0 & F1 & F2 & F3 & _). ib H.
    apply fit_iter in E0; [|exact F3]. apply fit_builds in E1; [|auto|exact E0]. eapply fit_bulk; [| |exact H]; [|cbn [fit]; exact E1]. destruct c; vm_compute in M; try discriminate M; reflexivity.
Qed.
Lemma reg_no_message cfg t c : reg_get (reg_of cfg) t = Some c -> kind_of c <> KMsg.
Proof.
  assert (G : forall r, forallb (fun p => negb (kind_eqb (kind_of (snd p)) KMsg)) r = true -> reg_get r t = Some c -> kind_of c <> KMsg).
  { induction r as [|[j e] r IH]; cbn [forallb reg_get fst snd]; [discriminate|]. intros A. apply andb_prop in A as [A B]. destruct (_ =? _); [|apply IH; exact B].
    intros H. injection H as <-. intros Z. rewrite Z in A. discriminate. }
  destruct cfg; apply G; reflexivity.
Qed.
Lemma fit_decode cfg depth : forall s l, decode (reg_of cfg) depth s = Ok l -> forallb fit l = true.
Proof.
  induction depth as [|d IH]; intros s l; [discriminate|]. cbn [decode].
  enough (G : forall fuel s l, decode_loop (reg_of cfg) (decode (reg_of cfg) d) fuel s = Ok l -> forallb fit l = true) by apply G.
  clear s l. induction fuel as [|fuel IF]; intros s l; destruct s as [|b s]; cbn [decode_loop]; intros H; try discriminate; try (injection H as <-; reflexivity).
  destruct (decode_one (reg_of cfg) (decode (reg_of cfg) d) (b :: s)) as [[o rest]|] eqn:O; cbn [bind] in H; [|discriminate].
  destruct (decode_loop (reg_of cfg) (decode (reg_of cfg) d) fuel rest) as [os|] eqn:L; cbn [bind] in H; [|discriminate]. injection H as <-. cbn [forallb]. rewrite (IF _ _ L), andb_true_r.
  unfold decode_one in O. destruct (decodeTag (b :: s)) as [[tag s1]|]; cbn [bind] in O; [|discriminate].
  destruct (decodeLength s1) as [[len s2]|]; cbn [bind] in O; [|discriminate]. destruct (reg_get (reg_of cfg) tag) as [c|] eqn:Rc; [|discriminate].
  destruct (decodeContents (decode (reg_of cfg) d) c (ztake len s2)) as [v|] eqn:Ec; cbn [bind] in O; [|discriminate]. injection O as <- <-.
  eapply fit_contents; [eapply reg_no_message; exact Rc| |exact Ec]. intros l'. apply IH.
Qed.
Lemma fit_message cfg depth c d m : message_decode (reg_of cfg) depth c d = Ok m -> m_cls m = c /\ fit (m_version m) = true /\ fit (m_community m) = true /\ fit (m_data m) = true.
Proof.
  unfold message_decode, decode_data. destruct d as [s|]; [|discriminate]. destruct (decode (reg_of cfg) depth s) as [l|] eqn:E; cbn [bind]; [|discriminate]. apply fit_decode in E.
  destruct l as [|o [|]]; try discriminate. cbn [forallb] in E. apply andb_prop in E as [F _]. intros H. destruct (py_len o) as [n|]; cbn [bind] in H; [|discriminate]. destruct (negb _); [discriminate|].
  ib H. injection H as <-. cbn [m_cls m_version m_community m_data]. split; [reflexivity|]. repeat split; eapply fit_getitem; eassumption.
Qed.

(** ** Putting them on the heap *)
Section Recv.
Context (n0 : nat).
Let S0 := fun l : loc => (n0 <= l)%nat.
Let N0 := fun (_ : loc) (_ : val) => False.
Fixpoint h_makes (l : list val) : H (list item) := match l with [] => hret [] | x :: r => y <== h_make x ;; ys <== h_makes r ;; hret (y :: ys) end.
Lemma makes_go l : (fix go (l : list val) : H (list item) := match l with [] => hret [] | x :: r => y <== h_make x ;; ys <== go r ;; hret (y :: ys) end) l = h_makes l.
Proof. induction l as [|x l IH]; [reflexivity|]. cbn [h_makes]. rewrite IH. reflexivity. Qed.
Lemma assoc_app d a l : (forall p, In p d -> attr_eqb (fst p) a = false) -> assoc (d ++ l) a = assoc l a.
Proof.
  intros N. induction d as [|[b i] d IH]; [reflexivity|]. cbn [app assoc]. pose proof (N (b, i) (or_introl eq_refl)) as Nb. cbn [fst] in Nb. rewrite Nb. apply IH. intros p J. apply N. right. exact J.
Qed.
Lemma names_value c (is : list item) : forall p, In p (combine (attr_names c) is) -> attr_eqb (fst p) Avalue = false.
Proof.
  intros [a i] J. apply in_combine_l in J. cbn [fst]. unfold attr_names in J. repeat match type of J with In _ (if ?b then _ else _) => destruct b end; cbn in J; repeat destruct J as [<-|J]; try reflexivity; destruct J.
Qed.
Lemma made_value : forall v h, (n0 <= length h)%nat -> fit v = true ->
  exists t a, h_make v h = (h ++ t, Ok a) /\ stands S0 N0 (h ++ t) a v.
Proof.
  fix IH 1. intros v h L F.
  assert (ALL : forall l, (forall x, In x l -> forall h, (n0 <= length h)%nat -> fit x = true -> exists t a, h_make x h = (h ++ t, Ok a) /\ stands S0 N0 (h ++ t) a x) -> forall h, (n0 <= length h)%nat -> forallb fit l = true ->
    exists t is, h_makes l h = (h ++ t, Ok is) /\ stand_all S0 N0 (h ++ t) is l).
  { clear. induction l as [|x l IHl]; intros Hx h L F; [exists [], []; rewrite app_nil_r; split; [reflexivity|constructor]|].
    cbn [forallb] in F. apply andb_prop in F as [F1 F2]. destruct (Hx x (or_introl eq_refl) h L F1) as (t & a & E & X).
    destruct (IHl (fun y J => Hx y (or_intror J)) (h ++ t)) as (t1 & is & E1 & X1); [rewrite app_length; lia|exact F2|].
    exists (t ++ t1), (a :: is). cbn [h_makes]. unfold hbind, hret. rewrite E, E1, app_assoc. split; [reflexivity|]. constructor; [apply stands_ext; exact X|exact X1]. }
  destruct v as [|z|s|l|c z|c w|[zs|]|c|c l]; cbn [h_make fit] in *; rewrite ?makes_go.
  - exists [], INone. rewrite app_nil_r. split; [reflexivity|constructor].
  - exists [], (IInt z). rewrite app_nil_r. split; [reflexivity|constructor].
  - exists [], (IStr s). rewrite app_nil_r. split; [reflexivity|constructor].
  - destruct (ALL l) with (h := h) as (t & is & E & X); [|exact L|exact F|].
    { clear - IH. induction l as [|y l IHl]; intros x J; [destruct J|]. destruct J as [<-|J]; [apply IH|apply IHl; exact J]. }
    unfold hbind. rewrite E. exists (t ++ [PList is]), (IRef (length (h ++ t))). unfold new. rewrite app_assoc. split; [reflexivity|].
    eapply st_list; [|apply new_at|apply stand_all_ext; exact X]. unfold S0. rewrite app_length. lia.
  - apply kind_eqb_eq in F. eexists [_], _. split; [reflexivity|]. eapply st_integer; [exact L|apply new_at|exact F|reflexivity].
  - apply andb_prop in F as [K F]. apply kind_eqb_eq in K. destruct (IH w h L F) as (t & a & E & X). unfold hbind. rewrite E. exists (t ++ [PObj c [(Avalue, a)]]), (IRef (length (h ++ t))). unfold new.
    rewrite app_assoc. split; [reflexivity|]. eapply st_octets; [|apply new_at|exact K|reflexivity|apply stands_ext; exact X]. unfold S0. rewrite app_length. lia.
  - apply made_oid. exact L.
  - eexists [_], _. split; [reflexivity|]. eapply st_noarcs; [exact L|apply new_at|reflexivity|reflexivity].
  - apply kind_eqb_eq in F. eexists [_], _. split; [reflexivity|]. eapply st_null; [exact L|apply new_at|exact F].
  - apply andb_prop in F as [F _]. apply andb_prop in F as [K F]. apply kind_eqb_eq in K. destruct (ALL l) with (h := h) as (t & is & E & X); [|exact L|exact F|].
    { clear - IH. induction l as [|y l IHl]; intros x J; [destruct J|]. destruct J as [<-|J]; [apply IH|apply IHl; exact J]. }
    unfold hbind. rewrite E. unfold new. exists (t ++ [PList is] ++ [PObj c (combine (attr_names c) is ++ [(Avalue, IRef (length (h ++ t)))])]), (IRef (length ((h ++ t) ++ [PList is]))).
    rewrite !app_assoc. split; [reflexivity|]. eapply st_seq with (a := length (h ++ t)); [|apply new_at|exact K| | | |].
    + unfold S0. rewrite !app_length. lia.
    + rewrite assoc_app by apply names_value. reflexivity.
    + unfold S0. rewrite app_length. lia.
    + apply nth_ext. apply new_at.
    + apply stand_all_ext, stand_all_ext. exact X.
Qed.
End Recv.

(** ** The message object *)
Section Msg.
Context (n0 : nat).
Let S0 := fun l : loc => (n0 <= l)%nat.
Let N0 := fun (_ : loc) (_ : val) => False.
Lemma kind_message f : kind_of (message_class f) = KMsg. Proof. destruct f; reflexivity. Qed.
Lemma made_message_object h msg : n0 = length h -> kind_of (m_cls msg) = KMsg -> fit (m_version msg) = true -> fit (m_community msg) = true -> fit (m_data msg) = true ->
  exists t n d, h_make_message msg h = (h ++ t, Ok (IRef n)) /\ stands S0 N0 (h ++ t) (IRef n) (message_val msg) /\ attr_of (h ++ t) (IRef n) Adata = Ok d /\ (n0 <= n)%nat /\
    (exists dd, nth_error (h ++ t) n = Some (PObj (m_cls msg) dd)) /\
    (forall c k z rest, m_data msg = VSeq c (VInt k z :: rest) -> issubclass c CPDU = true ->
      exists p r, d = IRef p /\ attr_of (h ++ t) d ArequestID = Ok (IRef r) /\ nth_error (h ++ t) r = Some (PObj k [(Avalue, IInt z)]) /\ kind_of k = KInt /\
        (exists dd, nth_error (h ++ t) p = Some (PObj c dd)) /\ (n0 <= p)%nat /\ (n0 <= r)%nat).
Proof.
  intros L0 K F1 F2 F3. unfold h_make_message. unfold hbind at 1. cbn [new].
  set (h1 := h ++ [PList []]). destruct (made_value n0 (m_version msg) h1) as (t1 & v & E1 & X1); [unfold h1; rewrite app_length; lia|exact F1|].
  unfold hbind at 1. rewrite E1. destruct (made_value n0 (m_community msg) (h1 ++ t1)) as (t2 & c & E2 & X2); [unfold h1; rewrite !app_length; lia|exact F2|].
  unfold hbind at 1. rewrite E2. destruct (made_value n0 (m_data msg) ((h1 ++ t1) ++ t2)) as (t3 & d & E3 & X3); [unfold h1; rewrite !app_length; lia|exact F3|].
  unfold hbind at 1. rewrite E3. set (h4 := ((h1 ++ t1) ++ t2) ++ t3) in *. unfold new.
  set (o := PObj (m_cls msg) [(Avalue, IRef (length h)); (Aversion, v); (Acommunity, c); (Adata, d)]).
  exists ([PList []] ++ t1 ++ t2 ++ t3 ++ [o]), (length h4), d. assert (Eh : h ++ [PList []] ++ t1 ++ t2 ++ t3 ++ [o] = h4 ++ [o]) by (unfold h4, h1; rewrite <- !app_assoc; reflexivity).
  rewrite Eh. split; [reflexivity|]. assert (L4 : (n0 <= length h4)%nat) by (unfold h4, h1; rewrite !app_length; lia).
  split; [|split; [|split; [exact L4|split; [eexists; apply new_at|]]]].
  - unfold message_val. eapply st_msg; [exact L4|apply new_at|exact K|reflexivity|reflexivity|reflexivity|].
    apply stand_all_ext. constructor; [apply stands_ext, stands_ext; exact X1|]. constructor; [apply stands_ext; exact X2|]. constructor; [exact X3|constructor].
  - eapply attr_at; [apply new_at|reflexivity].
  - intros k ci z rest Ed Ck. rewrite Ed in *. clear X3. cbn [h_make] in E3. rewrite makes_go in E3. cbn [h_makes h_make] in E3. set (h3 := (h1 ++ t1) ++ t2) in *. unfold hbind at 1 2 in E3. cbn [new] in E3.
    assert (Kci : kind_of ci = KInt). { cbn [fit forallb] in F3. apply andb_prop in F3 as [F3 _]. apply andb_prop in F3 as [_ F3]. apply andb_prop in F3 as [F3 _]. apply kind_eqb_eq. exact F3. }
    assert (Fr : forallb fit rest = true). { cbn [fit forallb] in F3. apply andb_prop in F3 as [F3 _]. apply andb_prop in F3 as [_ F3]. apply andb_prop in F3 as [_ F3]. exact F3. }
    assert (ALL : forall l h, (n0 <= length h)%nat -> forallb fit l = true -> exists t is, h_makes l h = (h ++ t, Ok is)).
    { clear. induction l as [|x l IHl]; intros h L F; [exists [], []; rewrite app_nil_r; reflexivity|].
      cbn [forallb] in F. apply andb_prop in F as [F1 F2]. destruct (made_value n0 x h L F1) as (t & a & E & X).
      destruct (IHl (h ++ t)) as (t1 & is & E1); [rewrite app_length; lia|exact F2|].
      exists (t ++ t1), (a :: is). cbn [h_makes]. unfold hbind, hret. rewrite E, E1, app_assoc. reflexivity. }
    destruct (ALL rest (h3 ++ [PObj ci [(Avalue, IInt z)]])) as (t4 & is & E4); [rewrite app_length; unfold h3, h1; rewrite !app_length; lia|exact Fr|].
    unfold hbind at 1 in E3. rewrite E4 in E3. cbn [hret] in E3. unfold hbind in E3. cbn [new] in E3.
    assert (L3 : (n0 <= length h3)%nat) by (unfold h3, h1; rewrite !app_length; lia).
    set (h5 := (h3 ++ [PObj ci [(Avalue, IInt z)]]) ++ t4) in *.
    set (q := PObj k (combine (attr_names k) (IRef (length h3) :: is) ++ [(Avalue, IRef (length h5))])) in *.
    assert (H4 : h4 = (h5 ++ [PList (IRef (length h3) :: is)]) ++ [q]) by (apply (f_equal fst) in E3; cbn [fst] in E3; symmetry; exact E3).
    assert (Dd : d = IRef (length (h5 ++ [PList (IRef (length h3) :: is)]))) by (apply (f_equal snd) in E3; cbn [snd] in E3; injection E3 as E3; symmetry; exact E3).
    assert (Nq : nth_error (h4 ++ [o]) (length (h5 ++ [PList (IRef (length h3) :: is)])) = Some q) by (apply nth_ext; rewrite H4; apply new_at).
    exists (length (h5 ++ [PList (IRef (length h3) :: is)])), (length h3). split; [exact Dd|]. split; [|split; [|split; [exact Kci|split; [|split; [|exact L3]]]]].
    + rewrite Dd. eapply attr_at; [exact Nq|]. unfold attr_names. rewrite Ck. reflexivity.
    + apply nth_ext. rewrite H4, nth_ext with (c := PObj ci [(Avalue, IInt z)]); [reflexivity|]. apply nth_ext. unfold h5. apply nth_ext. apply new_at.
    + eexists. exact Nq.
    + rewrite app_length. unfold h5. rewrite !app_length. lia.
Qed.
Lemma response_shape sys mg depth d id cb msg : Manager.receiveData sys mg depth d = (InvokeResponse id cb, Some msg) ->
  message_decode (reg_of (imports sys)) depth (message_class (flav sys)) d = Ok msg /\ exists c k rest, m_data msg = VSeq c (VInt k id :: rest) /\ issubclass c CPDU = true /\ dict_get (callbacks mg) id = Some (Cb cb).
Proof.
  unfold Manager.receiveData. destruct (message_decode _ _ _ d) as [m|] eqn:E; [|discriminate]. intros H. injection H as H ->. split; [reflexivity|].
  apply fit_message in E as (_ & _ & _ & F).
  assert (X : (isinstance (m_data msg) CPDU = true \/ isinstance (m_data msg) CPDU_v2 = true) /\ response_action mg (m_data msg) = InvokeResponse id cb).
  { unfold dispatch in H. set (ra := response_action mg (m_data msg)) in *.
    assert (T : forall ta, trap_action sys = ta -> ta <> InvokeResponse id cb) by (unfold trap_action; intros ta <-; destruct (trapCallback sys) as [[|]|]; discriminate).
    assert (Z : forall a b, (match match a with Done r => Done (guard (flav sys) r) | x => x end with InvokeResponse _ _ => True | _ => b end) -> b \/ exists i c, a = InvokeResponse i c) by (intros [| |] b; cbn; eauto).
    repeat match type of H with
    | context [match ?x with _ => _ end] =>
        lazymatch x with
        | isinstance _ _ => let E := fresh "I" in destruct x eqn:E
        | py_eq _ _ => destruct x as [[|]|]
        | flav sys => destruct x
        | ra => let E := fresh "R" in destruct x eqn:E
        | trap_action _ => let E := fresh "R" in destruct x eqn:E
        end
    end; try discriminate H; try (exfalso; eapply T; [reflexivity|]; rewrite ?R; exact H); split; auto. }
  destruct X as [I A]. assert (Ip : isinstance (m_data msg) CPDU = true).
  { destruct I as [I|I]; [exact I|]. destruct (m_data msg) as [| | | |c z|c w|o|c|c l]; try discriminate I; destruct c; vm_compute in I; try discriminate I; reflexivity. }
  unfold response_action in A. destruct (m_data msg) as [| | | |c z|c w|o|c|c l]; try discriminate A. cbn [fit] in F. apply andb_prop in F as [_ F]. cbn [isinstance] in Ip.
  assert (Sc : issubclass c CPDU = true) by exact Ip. rewrite Sc in F. cbn [negb orb] in F. destruct l as [|[| | | |k z|k w|o|k|k l'] rest]; try discriminate F. cbn [requestID_of py_int] in A.
  destruct (dict_get (callbacks mg) z) as [[]|] eqn:Dg; try discriminate A. injection A as <- <-. exists c, k, rest. auto.
Qed.
End Msg.
