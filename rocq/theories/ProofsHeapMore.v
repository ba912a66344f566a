(** * What a call registers and what constructors share *)
From Coq Require Import ZArith List Bool Lia.
From Verif Require Import PyBase Classes Values Codec Manager Heap SpecHeap ProofsHeap ProofsHeapKeep ProofsHeapCall ProofsHeapRun ProofsHeapMake ProofsHeapFixed ProofsHeapRecv ProofsHeapEnd ProofsHeapBack.
Import ListNotations.
Open Scope Z_scope.

(** ** The id *)
Definition pdu_id (h : heap) (d : item) (z : Z) : Prop :=
  exists p x c, d = IRef p /\ attr_of h d ArequestID = Ok (IRef x) /\ nth_error h x = Some (PObj c [(Avalue, IInt z)]) /\ kind_of c = KInt.
Lemma pdu_id_ext h t d z : pdu_id h d z -> pdu_id (h ++ t) d z.
Proof. intros (p & x & c & -> & A & N & K). exists p, x, c. split; [reflexivity|]. split; [apply attr_ext; exact A|]. split; [apply nth_ext; exact N|exact K]. Qed.
Lemma pdu1_id c z e i v h h' d : h_pdu1 c (IInt z) e i v h = (h', Ok d) -> pdu_id h' d z.
Proof.
  unfold h_pdu1. intros E. stepb E. stepb E. stepb E. stepb E. stepb E.
  apply (integer_ok CInteger) in X as (z' & -> & -> & Ez & _); [|reflexivity]. injection Ez as <-.
  destruct (grew _ _ _ _ (grows_integer _ _) X0) as [t1 ->]. destruct (grew _ _ _ _ (grows_integer _ _) X1) as [t2 ->].
  destruct (grew _ _ _ _ (grows_sequenceof _ _ _) X2) as [t3 ->]. cbn in X3. injection X3 as <- <-. cbn in E. injection E as <- <-.
  eexists _, (length h), CInteger. split; [reflexivity|]. split; [cbn [attr_of]; rewrite new_at; reflexivity|]. split; [|reflexivity]. repeat first [apply new_at | apply nth_ext].
Qed.
Lemma pdu2_id c z e i v h h' d : h_pdu2 c (IInt z) e i v h = (h', Ok d) -> pdu_id h' d z.
Proof.
  unfold h_pdu2. intros E. stepb E. stepb E. stepb E. stepb E. stepb E. stepb E. stepb E.
  destruct (grew _ _ _ _ (grows_pdu1 _ _ _ _ _) X) as [t0 ->]. cbn in X0. unfold hlift in X0. injection X0 as <- _.
  apply (integer_ok CInteger32) in X1 as (z' & -> & -> & Ez & _); [|reflexivity]. injection Ez as <-.
  destruct (grew _ _ _ _ (grows_integer _ _) X2) as [t1 ->]. destruct (grew _ _ _ _ (grows_integer _ _) X3) as [t2 ->].
  destruct (grew _ _ _ _ (grows_varbindlist2 _) X4) as [t3 ->]. cbn in X5. injection X5 as <- <-. cbn in E. injection E as <- <-.
  eexists _, (length (h ++ t0)), CInteger32. split; [reflexivity|]. split; [cbn [attr_of]; rewrite new_at; reflexivity|]. split; [|reflexivity]. repeat first [apply new_at | apply nth_ext].
Qed.
Lemma gbind_ok {A B} (x : G A) (f : A -> G B) s s' b : gbind x f s = (s', Ok b) -> exists s1 a, x s = (s1, Ok a) /\ f a s1 = (s', Ok b).
Proof. unfold gbind. destruct (x s) as [s1 [a|e]]; [eauto|discriminate]. Qed.
Lemma on_heap_ok {A} (x : H A) s s' a : on_heap x s = (s', Ok a) -> h_next s' = h_next s /\ x (hp s) = (hp s', Ok a).
Proof. unfold on_heap. destruct (x (hp s)) as [h r]. intros E. injection E as <- ->. split; reflexivity. Qed.
Definition made_id (n : Z) (s' : hstate) (d : item) : Prop := h_next s' = n + 1 /\ pdu_id (hp s') d n.
Lemma g_pdu_id c vbl s s' d : g_pdu c vbl s = (s', Ok d) -> made_id (h_next s) s' d.
Proof.
  unfold g_pdu. intros E. apply gbind_ok in E as (s1 & i & E1 & E). cbn in E1. injection E1 as <- <-. apply on_heap_ok in E as [En E]. cbn [hp h_next] in *.
  split; [exact En|]. unfold h_pdu in E. destruct (issubclass c CPDU_v2); [eapply pdu2_id|eapply pdu1_id]; exact E.
Qed.
Lemma g_pduv_id c1 c2 vbl v s s' d : g_pdu_version c1 c2 vbl v s = (s', Ok d) -> made_id (h_next s) s' d.
Proof.
  unfold g_pdu_version. intros E. apply gbind_ok in E as (s1 & i & E1 & E). cbn in E1. injection E1 as <- <-.
  destruct (v =? 1); [|destruct (v =? 2); [|discriminate]]; apply on_heap_ok in E as [En E]; cbn [hp h_next] in *;
    (split; [exact En|]; unfold h_pdu in E; destruct (issubclass _ CPDU_v2); [eapply pdu2_id|eapply pdu1_id]; exact E).
Qed.
Definition msg_id (n : Z) (s' : hstate) (m : item) : Prop := h_next s' = n + 1 /\ exists d, attr_of (hp s') m Adata = Ok d /\ pdu_id (hp s') d n.
Lemma g_msg_id n k v com pdu s s' m : k = CMessage \/ k = CMessage_v2 -> made_id n s pdu -> on_heap (h_message k v com pdu) s = (s', Ok m) -> msg_id n s' m.
Proof.
  intros C [En Pi] E. apply on_heap_ok in E as [En' E]. split; [congruence|]. destruct (grew _ _ _ _ (grows_message _ _ _ _) E) as [t Et].
  destruct (message_ok _ _ _ _ _ _ _ C E) as (x & c & l & w & kk & -> & _ & _ & N & _). exists pdu. split; [unfold attr_of; rewrite N; reflexivity|]. rewrite Et. apply pdu_id_ext. exact Pi.
Qed.
Lemma create_get_id f oid com ver s s' m : g_create_get f oid com ver s = (s', Ok m) -> msg_id (h_next s) s' m.
Proof.
  assert (X : forall (y : H item) (g : item -> G item) k v, k = CMessage \/ k = CMessage_v2 -> (forall vbl s s' d, g vbl s = (s', Ok d) -> made_id (h_next s) s' d) ->
    gbind (on_heap y) (fun vbl => gbind (g vbl) (fun pdu => on_heap (h_message k v com pdu))) s = (s', Ok m) -> msg_id (h_next s) s' m).
  { intros y g k v C Hg E. apply gbind_ok in E as (s1 & vbl & E1 & E). apply on_heap_ok in E1 as [En _]. apply gbind_ok in E as (s2 & pdu & E2 & E). apply Hg in E2. rewrite En in E2. eapply g_msg_id; eassumption. }
  destruct f; cbn [g_create_get].
  - apply X; [auto|]. intros; eapply g_pdu_id; eassumption.
  - apply X; [auto|]. intros; eapply g_pdu_id; eassumption.
  - destruct (ver =? 1); [|destruct (ver =? 2); [|discriminate]]; (apply X; [auto|]; intros; eapply g_pduv_id; eassumption).
Qed.
Lemma create_set_id oid ty v com ver s s' m : g_create_set oid ty v com ver s = (s', Ok m) -> msg_id (h_next s) s' m.
Proof.
  assert (X : forall (y : H item) (g : item -> G item) k v, k = CMessage \/ k = CMessage_v2 -> (forall vbl s s' d, g vbl s = (s', Ok d) -> made_id (h_next s) s' d) ->
    gbind (on_heap y) (fun vbl => gbind (g vbl) (fun pdu => on_heap (h_message k v com pdu))) s = (s', Ok m) -> msg_id (h_next s) s' m).
  { intros y g k w C Hg E. apply gbind_ok in E as (s1 & vbl & E1 & E). apply on_heap_ok in E1 as [En _]. apply gbind_ok in E as (s2 & pdu & E2 & E). apply Hg in E2. rewrite En in E2. eapply g_msg_id; eassumption. }
  unfold g_create_set. destruct (ver =? 1); [|destruct (ver =? 2); [|discriminate]]; (apply X; [auto|]; intros; eapply g_pduv_id; eassumption).
Qed.
Lemma create_getnext_id f vbl com ver s s' m : g_create_getnext f vbl com ver s = (s', Ok m) -> msg_id (h_next s) s' m.
Proof.
  destruct f; cbn [g_create_getnext]; [| discriminate |]; intros E; apply gbind_ok in E as (s1 & pdu & E1 & E).
  - apply g_pdu_id in E1. eapply g_msg_id; [|exact E1|exact E]. auto.
  - apply g_pduv_id in E1. destruct (ver =? 1); (eapply g_msg_id; [|exact E1|exact E]); auto.
Qed.
Lemma queue_id f m dst cb n s s' r : msg_id n s m -> g_queue f m dst cb s = (s', Ok r) -> h_next s' = n + 1 /\ exists x c, r = IRef x /\ nth_error (hp s') x = Some (PObj c [(Avalue, IInt n)]) /\ kind_of c = KInt.
Proof.
  intros [En (d & Ad & (p & x & c & -> & Ar & N & K))]. unfold g_queue, gbind, g_put, on_heap, rd. cbn [hp known h_out h_log h_stack h_cbs h_next]. rewrite Ad. cbn [bind]. rewrite Ar.
  unfold g_register. cbn [hp known h_out h_log h_stack h_cbs h_next]. destruct (key_num f (hp s) (IRef x)) as [z|]; [|discriminate]. unfold gret. intros E. injection E as <- <-. cbn. split; [exact En|]. exists x, c. auto.
Qed.
Lemma call_id f a dst cb s s' r : request_of a = Some (dst, cb) -> g_call f a s = (s', Ok r) -> h_next s' = h_next s + 1 /\ exists x c, r = IRef x /\ nth_error (hp s') x = Some (PObj c [(Avalue, IInt (h_next s))]) /\ kind_of c = KInt.
Proof.
  intros R. destruct a; try discriminate R; cbn [g_call].
  - intros E. apply gbind_ok in E as (s1 & m & E1 & E). apply create_get_id in E1. eapply queue_id; eassumption.
  - intros E. apply gbind_ok in E as (s1 & m & E1 & E). apply create_getnext_id in E1. eapply queue_id; eassumption.
  - destruct f; [| |discriminate]; intros E; apply gbind_ok in E as (s1 & m & E1 & E); [|discriminate E]. apply g_pdu_id in E1. apply gbind_ok in E as (s2 & m2 & E2 & E).
    eapply queue_id; [|exact E]. eapply g_msg_id; [|exact E1|exact E2]. auto.
  - destruct f; try discriminate. intros E. apply gbind_ok in E as (s1 & m & E1 & E). apply create_set_id in E1. eapply queue_id; eassumption.
Qed.

(** ** The registration *)
Lemma e_get_set f h d n k cb m : key_num f h k = Ok n -> e_get f h (e_set f h d n k cb) m = if m =? n then Some cb else e_get f h d m.
Proof.
  intros K. assert (MN : forall e, matches f h n e = true -> forall m, m <> n -> matches f h m e = false).
  { intros e M m0 Ne. unfold matches in *. apply andb_prop in M as [M _]. apply Z.eqb_eq in M. rewrite M. rewrite (proj2 (Z.eqb_neq n m0)) by congruence. reflexivity. }
  induction d as [|e d IH]; cbn [e_set e_get].
  - unfold matches at 1. cbn [e_hash e_key e_cb]. rewrite K. destruct (m =? n) eqn:E; [apply Z.eqb_eq in E as ->; rewrite Z.eqb_refl; reflexivity|]. rewrite Z.eqb_sym, E. reflexivity.
  - destruct (matches f h n e) eqn:M; cbn [e_get].
    + change (matches f h m (mkEntry (e_hash e) (e_key e) cb)) with (matches f h m e). destruct (m =? n) eqn:E; [apply Z.eqb_eq in E as ->; rewrite M; reflexivity|]. apply Z.eqb_neq in E. rewrite (MN e M m E). reflexivity.
    + destruct (matches f h m e) eqn:M'; [|exact IH]. destruct (m =? n) eqn:E; [apply Z.eqb_eq in E as ->; congruence|reflexivity].
Qed.
Lemma registered sys s a dst cb s1 m r : good s -> request_of a = Some (dst, cb) -> request_made sys s a dst s1 m r ->
  h_next s1 = h_next s + 1 /\ (exists c, now (hp s1) (IRef r) (VInt c (h_next s))) /\
  e_get (flav sys) (hp s1) (h_cbs s1) (h_next s) = Some cb /\ forall n, n <> h_next s -> e_get (flav sys) (hp s1) (h_cbs s1) n = e_get (flav sys) (hp s1) (h_cbs s) n.
Proof.
  intros Gs R (E & _ & _ & _ & Lg). cbn [gstep] in E. destruct (knows s (flat_map item_refs (call_items a))) eqn:K; [|discriminate].
  assert (F : Forall (fine D (hp s)) (call_items a)) by (apply knows_items; [apply Gs|exact K]).
  pose proof (request_ok D s (flav sys) a dst cb (i_ok _ _ (proj1 Gs)) (i_defaults _ _ (proj1 Gs)) F R) as (_ & _ & _ & _ & Q). pose proof (call_id (flav sys) a dst cb s) as CI.
  destruct (g_call (flav sys) a s) as [s' [i|e]]; cbn [fst snd] in *; injection E as <-; cbn [h_log g_say learn] in Lg.
  2: { destruct Q as (_ & _ & _ & _ & Q). rewrite Q in Lg. apply app_inv_head in Lg. discriminate. }
  destruct Q as (n & x & d0 & z & -> & Q1 & Q2 & _ & _ & _ & Z & Cb). rewrite Q2, <- app_assoc in Lg. apply app_inv_head in Lg. injection Lg as _ <-.
  destruct (CI s' (IRef x) R eq_refl) as (En & x' & c & Ex & N & Kc). injection Ex as <-. cbn [hp h_next h_cbs g_say learn].
  assert (z = h_next s). { unfold key_num, is_a, class_at in Z. rewrite N in Z. destruct (issubclass c CInteger); [|discriminate]. rewrite (attr_at _ _ _ _ Avalue (IInt (h_next s)) N eq_refl) in Z. cbn [bind] in Z. destruct (flav sys); injection Z as <-; reflexivity. }
  subst z. split; [exact En|]. split. { exists c. eapply st_integer; [exact Logic.I|exact N|exact Kc|reflexivity]. }
  assert (KN : key_num (flav sys) (hp s') (match flav sys with FSM => IRef x | _ => IInt (h_next s) end) = Ok (h_next s)) by (destruct (flav sys); [reflexivity|reflexivity|exact Z]).
  rewrite Cb. split; [rewrite e_get_set by exact KN; rewrite Z.eqb_refl; reflexivity|]. intros k Ne. rewrite e_get_set by exact KN. rewrite (proj2 (Z.eqb_neq _ _) Ne). reflexivity.
Qed.

(** ** What constructors share *)
Lemma call_step sys s a : knows s (flat_map item_refs (call_items a)) = true -> gstep sys s (UCall a) = Some (let '(s', r) := g_call (flav sys) a s in g_say [GReturned r] (learn (match r with Ok i => item_refs i | Err _ => [] end) s')).
Proof. intros K. cbn [gstep]. rewrite K. destruct (g_call (flav sys) a s). reflexivity. Qed.
Lemma varbind_shares sys s c n v s' p : gstep sys s (UCall (HNewVarBind c n v)) = Some s' -> h_log s' = h_log s ++ [GReturned (Ok (IRef p))] ->
  (length (hp s) <= p)%nat /\ attr_of (hp s') (IRef p) AobjectID = Ok n /\ attr_of (hp s') (IRef p) AobjectValue = Ok v /\
  exists l, attr_of (hp s') (IRef p) Avalue = Ok (IRef l) /\ (length (hp s) <= l)%nat /\ nth_error (hp s') l = Some (PList [n; v]).
Proof.
  cbn [gstep]. destruct (knows _ _); [|discriminate]. cbn [g_call]. unfold on_heap, h_varbind, hbind, rd, new. 
  destruct (bind (h_truthy (hp s) n) _) as [u|e]; [|intros E; injection E as <-; cbn; intros L; apply app_inv_head in L; discriminate].
  destruct (bind (h_truthy (hp s) v) _) as [u'|e]; [|intros E; injection E as <-; cbn; intros L; apply app_inv_head in L; discriminate].
  intros E. injection E as <-. cbn [h_log g_say learn hp]. intros L. apply app_inv_head in L. injection L as <-. rewrite <- app_assoc, app_length. cbn [app length].
  split; [lia|]. repeat (split; [eapply attr_at; [apply nth_at; reflexivity|reflexivity]|]). exists (length (hp s)). split; [eapply attr_at; [apply nth_at; reflexivity|reflexivity]|]. split; [lia|].
  replace (length (hp s)) with (length (hp s) + 0)%nat by lia. apply nth_at. reflexivity.
Qed.
Lemma trap_shares sys s e a g sp t v s' p : gstep sys s (UCall (HNewTrapPDU e a g sp t v)) = Some s' -> h_log s' = h_log s ++ [GReturned (Ok (IRef p))] ->
  (length (hp s) <= p)%nat /\ attr_of (hp s') (IRef p) Aenterprise = Ok e /\ attr_of (hp s') (IRef p) AagentAddr = Ok a /\ attr_of (hp s') (IRef p) AgenericTrap = Ok g /\
  attr_of (hp s') (IRef p) AspecificTrap = Ok sp /\ attr_of (hp s') (IRef p) Atimestamp = Ok t /\ attr_of (hp s') (IRef p) AvarBindList = Ok v /\
  exists l, attr_of (hp s') (IRef p) Avalue = Ok (IRef l) /\ (length (hp s) <= l)%nat /\ nth_error (hp s') l = Some (PList [e; a; g; sp; t; v]).
Proof.
  cbn [gstep]. destruct (knows _ _); [|discriminate]. cbn [g_call]. unfold on_heap, h_trappdu, hbind, new. 
  intros E. injection E as <-. cbn [h_log g_say learn hp]. intros L. apply app_inv_head in L. injection L as <-. rewrite <- app_assoc, app_length. cbn [app length].
  split; [lia|]. repeat (split; [eapply attr_at; [apply nth_at; reflexivity|reflexivity]|]). exists (length (hp s)). split; [eapply attr_at; [apply nth_at; reflexivity|reflexivity]|]. split; [lia|].
  replace (length (hp s)) with (length (hp s) + 0)%nat by lia. apply nth_at. reflexivity.
Qed.
Lemma seqof_copies c k v h h' a : h_sequenceof c k v h = (h', Ok a) -> exists is t, (h_truthy h v = Ok false /\ is = [] \/ h_truthy h v = Ok true /\ elems h v = Ok is) /\
  h' = h ++ [PList is; PObj c [(Avalue, IRef (length h))]] /\ a = IRef t /\ t = S (length h).
Proof.
  unfold h_sequenceof, hbind, rd, new. destruct (h_truthy h v) as [[|]|] eqn:T; cbn [bind]; [| |discriminate].
  - destruct (elems h v) as [l|] eqn:El; cbn [bind]; [|discriminate]. destruct (check_all h k l); cbn [bind]; [|discriminate]. intros E. injection E as <- <-. exists l, (S (length h)). rewrite <- app_assoc, app_length. cbn.
    split; [right; auto|]. split; [reflexivity|]. split; [f_equal; lia|reflexivity].
  - intros E. injection E as <- <-. exists [], (S (length h)). rewrite <- app_assoc, app_length. cbn. split; [left; auto|]. split; [reflexivity|]. split; [f_equal; lia|reflexivity].
Qed.
(** VarBindList(l) *)
Lemma list_copies sys s two v s' p : gstep sys s (UCall (HNewVarBindList two (Some v))) = Some s' -> h_log s' = h_log s ++ [GReturned (Ok (IRef p))] ->
  (length (hp s) <= p)%nat /\ exists l is, attr_of (hp s') (IRef p) Avalue = Ok (IRef l) /\ (length (hp s) <= l)%nat /\ nth_error (hp s') l = Some (PList is) /\
    (h_truthy (hp s) v = Ok false /\ is = [] \/ h_truthy (hp s) v = Ok true /\ elems (hp s) v = Ok is).
Proof.
  cbn [gstep]. destruct (knows _ _); [|discriminate]. cbn [g_call opt_item]. unfold on_heap.
  assert (X : forall h' i, (if two then h_varbindlist2 v else h_varbindlist v) (hp s) = (h', Ok i) -> exists is t c, (h_truthy (hp s) v = Ok false /\ is = [] \/ h_truthy (hp s) v = Ok true /\ elems (hp s) v = Ok is) /\
    h' = hp s ++ [PList is; PObj c [(Avalue, IRef (length (hp s)))]] /\ i = IRef t /\ t = S (length (hp s))).
  { intros h' i. destruct two.
    - unfold h_varbindlist2. intros E. apply hbind_ok in E as (h1 & n & E1 & E). injection E1 as <- _. destruct (max_bindings <? n); [discriminate|]. apply seqof_copies in E as (is & t & A). exists is, t, CVarBindList_v2. exact A.
    - intros E. apply seqof_copies in E as (is & t & A). exists is, t, CVarBindList. exact A. }
  destruct ((if two then h_varbindlist2 v else h_varbindlist v) (hp s)) as [h' [i|e]]; intros E; injection E as <-; cbn [h_log g_say learn]; intros L; apply app_inv_head in L; [|discriminate]. injection L as ->.
  destruct (X h' (IRef p) eq_refl) as (is & t & c & A & -> & Et & ->). injection Et as ->. cbn [hp g_say learn]. split; [lia|]. exists (length (hp s)), is.
  split; [eapply attr_at; [replace (S (length (hp s))) with (length (hp s) + 1)%nat by lia; apply nth_at; reflexivity|reflexivity]|]. split; [lia|]. split; [|exact A].
  replace (length (hp s)) with (length (hp s) + 0)%nat at 2 by lia. apply nth_at. reflexivity.
Qed.
(** ObjectID(x): a new list, if any *)
Lemma objectid_copies sys s v s' p : gstep sys s (UCall (HNewObjectID v)) = Some s' -> h_log s' = h_log s ++ [GReturned (Ok (IRef p))] ->
  (length (hp s) <= p)%nat /\ ((v = INone /\ attr_of (hp s') (IRef p) Avalue = Ok INone) \/
   exists l is, attr_of (hp s') (IRef p) Avalue = Ok (IRef l) /\ (length (hp s) <= l)%nat /\ nth_error (hp s') l = Some (PList is) /\
     forall q, v = IRef q -> nth_error (hp s) q = Some (PList is) \/ exists a, attr_of (hp s) v Avalue = Ok (IRef a) /\ nth_error (hp s) a = Some (PList is)).
Proof.
  cbn [gstep]. destruct (knows _ _); [|discriminate]. cbn [g_call]. unfold on_heap.
  assert (X : forall h' i, h_objectid v (hp s) = (h', Ok i) -> (v = INone /\ h' = hp s ++ [PObj CObjectID [(Avalue, INone)]] /\ i = IRef (length (hp s) + 0)%nat) \/
    exists is, h' = hp s ++ [PList is; PObj CObjectID [(Avalue, IRef (length (hp s) + 0)%nat)]] /\ i = IRef (length (hp s) + 1)%nat /\
       forall q, v = IRef q -> nth_error (hp s) q = Some (PList is) \/ exists a, attr_of (hp s) v Avalue = Ok (IRef a) /\ nth_error (hp s) a = Some (PList is)).
  { assert (N : forall x h' i, (v <== new (PList x) ;; new (PObj CObjectID [(Avalue, v)])) (hp s) = (h', Ok i) -> h' = hp s ++ [PList x; PObj CObjectID [(Avalue, IRef (length (hp s) + 0)%nat)]] /\ i = IRef (length (hp s) + 1)%nat).
    { intros x h' i E. unfold hbind, new in E. injection E as <- <-. rewrite <- app_assoc, app_length, Nat.add_0_r. split; reflexivity. }
    intros h' i E. destruct v as [|z|str|q]; cbn [h_objectid] in E.
    - injection E as <- <-. left. rewrite Nat.add_0_r. auto.
    - apply N in E as [-> ->]. right. exists [IInt z]. split; [reflexivity|]. split; [reflexivity|]. discriminate.
    - apply hbind_ok in E as (h1 & zs & E1 & E). unfold hlift in E1. injection E1 as <- _. apply N in E as [-> ->]. right. exists (map IInt zs). split; [reflexivity|]. split; [reflexivity|]. discriminate.
    - destruct (nth_error (hp s) q) as [[x|c d]|] eqn:Nq; [| |discriminate].
      + apply N in E as [-> ->]. right. exists x. split; [reflexivity|]. split; [reflexivity|]. intros q' Eq. injection Eq as <-. left. exact Nq.
      + destruct (issubclass c CObjectID); [|discriminate]. apply hbind_ok in E as (h1 & x & E1 & E). unfold rd in E1. injection E1 as <- E1.
        assert (E1' : (i <- attr_of (hp s) (IRef q) Avalue ;; list_at (hp s) i) = Ok x) by exact E1. clear E1. rename E1' into E1. destruct (attr_of (hp s) (IRef q) Avalue) as [a|] eqn:Aq; [|discriminate E1]. cbn [bind] in E1. destruct a as [| | |a]; try discriminate E1. unfold list_at in E1. destruct (nth_error (hp s) a) as [[y|]|] eqn:Na; try discriminate E1. injection E1 as ->.
        apply N in E as [-> ->]. right. exists x. split; [reflexivity|]. split; [reflexivity|]. intros q' Eq. right. exists a. auto. }
  destruct (h_objectid v (hp s)) as [h' [i|e]]; intros E; injection E as <-; cbn [h_log g_say learn]; intros L; apply app_inv_head in L; [|discriminate]. injection L as ->.
  destruct (X h' (IRef p) eq_refl) as [(Ev & -> & Ep)|(is & -> & Ep & A)]; injection Ep as ->; cbn [hp g_say learn]; (split; [lia|]).
  - left. split; [exact Ev|]. eapply attr_at; [apply nth_at; reflexivity|reflexivity].
  - right. exists (length (hp s) + 0)%nat, is. split; [eapply attr_at; [apply nth_at; reflexivity|reflexivity]|]. split; [lia|]. split; [apply nth_at; reflexivity|exact A].
Qed.
Lemma append_refused sys s v x s' : is_a (hp s) x CVarBind = false -> gstep sys s (UCall (HAppend v x)) = Some s' -> hp s' = hp s /\ h_log s' = h_log s ++ [GReturned (Err ValueError)].
Proof.
  intros N. cbn [gstep]. destruct (knows _ _); [|discriminate]. cbn [g_call]. unfold on_heap, h_append. rewrite N. cbn [negb]. intros E. injection E as <-. split; reflexivity.
Qed.
