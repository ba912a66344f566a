(** * What a method call leaves behind *)
From Coq Require Import ZArith List Bool Lia.
From Verif Require Import PyBase Classes Values Codec Manager Heap SpecHeap ProofsHeap ProofsHeapKeep.
Import ListNotations.
Open Scope Z_scope.

Lemma hbind_ok {A B} (x : H A) (f : A -> H B) h h' b : hbind x f h = (h', Ok b) -> exists h1 a, x h = (h1, Ok a) /\ f a h1 = (h', Ok b).
Proof. unfold hbind. destruct (x h) as [h1 [a|e]]; [eauto|discriminate]. Qed.
(** The constructors only add objects. *)
Definition grows {A} (x : H A) : Prop := forall h, exists t, fst (x h) = h ++ t.
Lemma grows_bind {A B} (x : H A) (f : A -> H B) : grows x -> (forall a, grows (f a)) -> grows (hbind x f).
Proof.
  intros G K h. unfold hbind. destruct (G h) as [t E]. destruct (x h) as [h1 [a|e]]; cbn in E; subst; [|exists t; reflexivity].
  destruct (K a (h ++ t)) as [t' E']. exists (t ++ t'). rewrite E', app_assoc. reflexivity.
Qed.
Lemma grows_same {A} (f : heap -> res A) : grows (fun h => (h, f h)).
Proof. intros h. exists []. cbn. rewrite app_nil_r. reflexivity. Qed.
Lemma grows_ret {A} (a : A) : grows (hret a). Proof. apply (grows_same (fun _ => Ok a)). Qed.
Lemma grows_lift {A} (r : res A) : grows (hlift r). Proof. apply (grows_same (fun _ => r)). Qed.
Lemma grows_rd {A} (f : heap -> res A) : grows (rd f). Proof. apply grows_same. Qed.
Lemma grows_new c : grows (new c). Proof. intros h. exists [c]. reflexivity. Qed.
Ltac gr := repeat first [apply grows_bind; [|intros ?] | apply grows_ret | apply grows_lift | apply grows_rd | apply grows_new].
Lemma grows_integer c v : grows (h_integer c v).
Proof. destruct v; cbn; gr. destruct (_ && _); gr. Qed.
Lemma grows_copy v : grows (py_copy v).
Proof. destruct v; cbn [py_copy]; gr. intros h. destruct (nth_error h l) as [c|]; [apply grows_new|exists []; cbn; rewrite app_nil_r; reflexivity]. Qed.
Lemma grows_octetstring c v : grows (h_octetstring c v). Proof. unfold h_octetstring. gr. apply grows_copy. Qed.
Lemma grows_objectid v : grows (h_objectid v).
Proof.
  destruct v; cbn [h_objectid]; gr. intros h. destruct (nth_error h l) as [[x|c d]|]; [|destruct (issubclass c CObjectID)|]; try (exists []; cbn; rewrite app_nil_r; reflexivity);
    match goal with |- exists t, fst (?x h) = _ => assert (G : grows x) by gr; apply G end.
Qed.
Lemma grows_ipaddress c v : grows (h_ipaddress c v).
Proof.
  destruct v; cbn [h_ipaddress]; gr; [destruct (negb _); gr|].
  intros h. destruct (nth_error h l) as [[x|]|]; try apply grows_new. destruct (negb _); [exists []; cbn; rewrite app_nil_r; reflexivity|].
  refine (grows_bind (py_copy (IRef l)) (fun v => new (PObj c [(Avalue, v)])) (grows_copy _) (fun _ => grows_new _) h).
Qed.
Lemma grows_sequence c v : grows (h_sequence c v). Proof. destruct v; cbn [h_sequence]; gr. Qed.
Lemma grows_sequenceof c k v : grows (h_sequenceof c k v). Proof. unfold h_sequenceof. gr. Qed.
Lemma grows_varbind c n v : grows (h_varbind c n v). Proof. unfold h_varbind. gr. Qed.
Lemma grows_varbindlist2 v : grows (h_varbindlist2 v). Proof. unfold h_varbindlist2. gr. destruct (max_bindings <? _); [gr|apply grows_sequenceof]. Qed.
Ltac gr' := repeat first [ apply grows_ret | apply grows_lift | apply grows_rd | apply grows_new
  | apply grows_integer | apply grows_copy | apply grows_octetstring | apply grows_objectid | apply grows_ipaddress | apply grows_sequence | apply grows_varbindlist2 | apply grows_varbind | apply grows_sequenceof | apply grows_bind; [|intros ?] ].
Lemma grows_pdu1 c r e i v : grows (h_pdu1 c r e i v). Proof. unfold h_pdu1. gr'. Qed.
Lemma grows_pdu2 c r e i v : grows (h_pdu2 c r e i v). Proof. unfold h_pdu2. apply grows_bind; [apply grows_pdu1|intros ?]. gr'. Qed.
Lemma grows_pdu c r e i v : grows (h_pdu c r e i v). Proof. unfold h_pdu. destruct (issubclass c CPDU_v2); [apply grows_pdu2|apply grows_pdu1]. Qed.
Lemma grows_bulk c r e i v : grows (h_bulk c r e i v). Proof. unfold h_bulk. gr'. Qed.
Lemma grows_trappdu e a g s t v : grows (h_trappdu e a g s t v). Proof. unfold h_trappdu. gr'. Qed.
Lemma grows_message c n com d : grows (h_message c n com d). Proof. unfold h_message. gr'. Qed.
Lemma grows_null_binding c o : grows (h_null_binding c o). Proof. unfold h_null_binding, h_null. gr'. Qed.
Lemma grows_list_of two l : grows (h_list_of two l). Proof. unfold h_list_of. gr'. destruct two; gr'. Qed.
Lemma grows_mapM {A B} (f : A -> H B) l : (forall a, grows (f a)) -> grows (hmapM f l). Proof. intros G. induction l; cbn [hmapM]; gr'; auto. Qed.
Lemma grows_construct c v : grows (h_construct c v).
Proof. destruct c; cbn [h_construct]; first [gr'; fail | apply grows_pdu | apply grows_bulk | apply grows_trappdu]. Qed.
Lemma grows_typed n v : grows (h_typed n v). Proof. unfold h_typed. destruct (reg_get reg1905 n); [apply grows_construct|gr']. Qed.

(** ** Shape of PDUs and messages *)
(** [x] is an integer object *)
Definition int_obj (h : heap) (x : loc) : Prop := exists c z, nth_error h x = Some (PObj c [(Avalue, IInt z)]) /\ kind_of c = KInt.
Lemma int_obj_ext h t x : int_obj h x -> int_obj (h ++ t) x.
Proof. intros (c & z & E & K). exists c, z. split; [apply nth_ext; exact E|exact K]. Qed.
Definition pdu_with (n0 : nat) (h : heap) (d : item) (r : item) : Prop :=
  exists p x, d = IRef p /\ r = IRef x /\ attr_of h d ArequestID = Ok r /\ int_obj h x /\ (n0 <= x)%nat /\ (x < length h)%nat /\ (n0 <= p)%nat.
Lemma attr_ext h t v a i : attr_of h v a = Ok i -> attr_of (h ++ t) v a = Ok i.
Proof. destruct v; try discriminate. cbn [attr_of]. destruct (nth_error h l) as [c|] eqn:E; [|discriminate]. rewrite (nth_ext _ _ _ _ E). auto. Qed.
Lemma pdu_with_ext n0 h t d r : pdu_with n0 h d r -> pdu_with n0 (h ++ t) d r.
Proof. intros (p & x & -> & -> & A & I & L & L' & L2). exists p, x. rewrite app_length. repeat split; auto; [apply attr_ext; exact A|apply int_obj_ext; exact I|lia]. Qed.
Lemma integer_ok c v h h' a : kind_of c = KInt -> h_integer c v h = (h', Ok a) -> exists z, h' = h ++ [PObj c [(Avalue, IInt z)]] /\ a = IRef (length h) /\ v = IInt z /\ (MINVAL c <=? z) && (z <=? MAXVAL c) = true.
Proof.
  intros K. destruct v; cbn; try discriminate. destruct (_ && _) eqn:B; cbn; [|discriminate]. intros E. injection E as <- <-. eauto.
Qed.
Lemma grew {A} (x : H A) h h' a : grows x -> x h = (h', Ok a) -> exists t, h' = h ++ t.
Proof. intros G E. destruct (G h) as [t X]. rewrite E in X. cbn in X. eauto. Qed.
Lemma new_at h (c : cell) : nth_error (h ++ [c]) (length h) = Some c.
Proof. rewrite nth_error_app2 by lia. rewrite Nat.sub_diag. reflexivity. Qed.
Ltac stepb E := let h := fresh "h" in let a := fresh "a" in let X := fresh "X" in apply hbind_ok in E as (h & a & X & E).
Lemma pdu1_ok c r e i v h h' d : h_pdu1 c r e i v h = (h', Ok d) -> exists r', pdu_with (length h) h' d r'.
Proof.
  unfold h_pdu1. intros E. stepb E. stepb E. stepb E. stepb E. stepb E.
  apply (integer_ok CInteger) in X as (z & -> & -> & -> & _); [|reflexivity].
  destruct (grew _ _ _ _ (grows_integer _ _) X0) as [t1 ->]. destruct (grew _ _ _ _ (grows_integer _ _) X1) as [t2 ->].
  destruct (grew _ _ _ _ (grows_sequenceof _ _ _) X2) as [t3 ->]. cbn in X3. injection X3 as <- <-. cbn in E. injection E as <- <-.
  exists (IRef (length h)). eexists _, (length h). split; [reflexivity|]. split; [reflexivity|]. split; [cbn [attr_of]; rewrite new_at; reflexivity|].
  split; [exists CInteger, z; split; [|reflexivity]; repeat first [apply new_at | apply nth_ext]|]. rewrite !app_length. cbn. lia.
Qed.
Lemma pdu2_ok c r e i v h h' d : h_pdu2 c r e i v h = (h', Ok d) -> exists r', pdu_with (length h) h' d r'.
Proof.
  unfold h_pdu2. intros E. stepb E. stepb E. stepb E. stepb E. stepb E. stepb E. stepb E.
  destruct (grew _ _ _ _ (grows_pdu1 _ _ _ _ _) X) as [t0 ->]. cbn in X0. unfold hlift in X0. injection X0 as <- _.
  apply (integer_ok CInteger32) in X1 as (z & -> & -> & -> & _); [|reflexivity].
  destruct (grew _ _ _ _ (grows_integer _ _) X2) as [t1 ->]. destruct (grew _ _ _ _ (grows_integer _ _) X3) as [t2 ->].
  destruct (grew _ _ _ _ (grows_varbindlist2 _) X4) as [t3 ->]. cbn in X5. injection X5 as <- <-. cbn in E. injection E as <- <-.
  exists (IRef (length (h ++ t0))). eexists _, (length (h ++ t0)). split; [reflexivity|]. split; [reflexivity|]. split; [cbn [attr_of]; rewrite new_at; reflexivity|].
  split; [exists CInteger32, z; split; [|reflexivity]; repeat first [apply new_at | apply nth_ext]|]. rewrite !app_length. cbn. lia.
Qed.
Lemma pdu_ok c r e i v h h' d : h_pdu c r e i v h = (h', Ok d) -> exists r', pdu_with (length h) h' d r'.
Proof. unfold h_pdu. destruct (issubclass c CPDU_v2); [apply pdu2_ok|apply pdu1_ok]. Qed.

(** The message object, made last. *)
Definition last_message (n0 : nat) (h : heap) (m d : item) : Prop :=
  exists n c l v k, m = IRef n /\ length h = S n /\ (n0 <= n)%nat /\ nth_error h n = Some (PObj c [(Avalue, l); (Aversion, v); (Acommunity, k); (Adata, d)]) /\ (c = CMessage \/ c = CMessage_v2).
Lemma message_ok c n com d h h' m : c = CMessage \/ c = CMessage_v2 -> h_message c n com d h = (h', Ok m) -> last_message (length h) h' m d.
Proof.
  intros C. unfold h_message. intros E. stepb E. stepb E. stepb E. cbn in X. injection X as <- <-.
  destruct (grew _ _ _ _ (grows_integer _ _) X0) as [t1 ->]. destruct (grew _ _ _ _ (grows_octetstring _ _) X1) as [t2 ->]. cbn in E. injection E as <- <-.
  eexists _, c, _, _, _. split; [reflexivity|]. split; [rewrite app_length; cbn; lia|]. split; [rewrite !app_length; cbn; lia|]. split; [apply new_at|exact C].
Qed.

(** ** Methods *)
Definition same (s s' : hstate) : Prop :=
  known s' = known s /\ h_out s' = h_out s /\ h_cbs s' = h_cbs s /\ h_stack s' = h_stack s /\ h_log s' = h_log s.
Lemma same_refl s : same s s. Proof. repeat split. Qed.
Lemma same_trans a b c : same a b -> same b c -> same a c.
Proof. intros (A & B & C & D & E) (A' & B' & C' & D' & E'). repeat split; congruence. Qed.
Definition gpost (P : loc -> Prop) (s : hstate) {A} (Q : hstate -> A -> Prop) (y : hstate * res A) : Prop :=
  (exists t, hp (fst y) = hp s ++ t) /\ okh P (hp (fst y)) /\ same s (fst y) /\ forall a, snd y = Ok a -> Q (fst y) a.
Lemma gpost_heap P s {A} (Q : heap -> A -> Prop) (x : H A) : post P (hp s) Q (x (hp s)) -> gpost P s (fun s' a => Q (hp s') a) (on_heap x s).
Proof. intros (t & E & O & K). unfold on_heap. destruct (x (hp s)) as [h r]. cbn in *. split; [exists t; exact E|]. split; [exact O|]. split; [repeat split|exact K]. Qed.
Lemma gpost_bind P s {A B} (x : G A) (f : A -> G B) (Q : hstate -> A -> Prop) (R : hstate -> B -> Prop) :
  gpost P s Q (x s) -> (forall s' a t, hp s' = hp s ++ t -> okh P (hp s') -> same s s' -> Q s' a -> gpost P s' R (f a s')) -> gpost P s R (gbind x f s).
Proof.
  intros ((t & E) & O & S & K) F. unfold gbind. destruct (x s) as [s1 [a|e]]; cbn [fst snd] in *.
  - destruct (F s1 a t E O S (K a eq_refl)) as ((t' & E') & O' & S' & K'). split; [exists (t ++ t'); rewrite E', E, app_assoc; reflexivity|].
    split; [exact O'|]. split; [eapply same_trans; eassumption|exact K'].
  - split; [exists t; exact E|]. split; [exact O|]. split; [exact S|discriminate].
Qed.
Lemma gpost_assign P s : okh P (hp s) -> gpost P s (fun s' i => exists z, i = IInt z) (g_assign s).
Proof. intros O. split; [exists []; cbn; rewrite app_nil_r; reflexivity|]. split; [exact O|]. split; [repeat split|]. cbn. intros a E. injection E as <-. eauto. Qed.
Lemma gpost_err P s {A} (Q : hstate -> A -> Prop) e : okh P (hp s) -> gpost P s Q (gerr e s).
Proof. intros O. split; [exists []; cbn; rewrite app_nil_r; reflexivity|]. split; [exact O|]. split; [repeat split|]. discriminate. Qed.
Lemma gpost_weaken P s {A} (Q R : hstate -> A -> Prop) y : gpost P s Q y -> (forall s' a, Q s' a -> R s' a) -> gpost P s R y.
Proof. intros (E & O & S & K) W. split; [exact E|]. split; [exact O|]. split; [exact S|]. auto. Qed.

(** A PDU with a fresh request id. *)
Definition Qpdu P (n0 : nat) (s' : hstate) (d : item) : Prop := fine P (hp s') d /\ exists r, pdu_with n0 (hp s') d r.
Lemma g_pdu_ok P s c id vbl : okh P (hp s) -> defaults_ok (hp s) -> fine P (hp s) vbl -> gpost P s (Qpdu P (length (hp s))) (on_heap (h_pdu c id (IInt 0) (IInt 0) vbl) s).
Proof.
  intros O D F. destruct (gpost_heap P s _ _ (keep_pdu P (hp s) c id (IInt 0) (IInt 0) vbl O D (or_introl F))) as (E & O' & S & K).
  split; [exact E|]. split; [exact O'|]. split; [exact S|]. intros d Ed. split; [apply K; exact Ed|].
  unfold on_heap in *. destruct (h_pdu c id (IInt 0) (IInt 0) vbl (hp s)) as [h [d'|]] eqn:X; cbn in *; [|discriminate]. injection Ed as ->. eapply pdu_ok. exact X.
Qed.
Definition Qmsg P (n0 : nat) (s' : hstate) (m : item) : Prop :=
  fine P (hp s') m /\ exists d r, last_message n0 (hp s') m d /\ pdu_with n0 (hp s') d r.
Lemma g_message_ok P s c n com d n0 : okh P (hp s) -> fine P (hp s) com -> Qpdu P n0 s d -> (n0 <= length (hp s))%nat -> c = CMessage \/ c = CMessage_v2 ->
  gpost P s (Qmsg P n0) (on_heap (h_message c n com d) s).
Proof.
  intros O Fc [Fd (r & Pd)] L C. destruct (gpost_heap P s _ _ (keep_message P (hp s) c n com d O Fc Fd)) as (E & O' & S & K).
  split; [exact E|]. split; [exact O'|]. split; [exact S|]. intros m Em. split; [apply K; exact Em|]. exists d, r.
  destruct E as [t E]. split; [|rewrite E; apply pdu_with_ext; exact Pd].
  unfold on_heap in *. destruct (h_message c n com d (hp s)) as [h [m'|]] eqn:X; cbn in *; [|discriminate]. injection Em as ->.
  apply message_ok in X; [|exact C]. destruct X as (k & c' & l & v & kk & A1 & A2 & A3 & A4). exists k, c', l, v, kk. repeat split; try assumption; try apply A4. lia.
Qed.

Section Methods.
  Context (P : loc -> Prop).
  Lemma gp_pdu s c vbl : okh P (hp s) -> defaults_ok (hp s) -> fine P (hp s) vbl -> gpost P s (Qpdu P (length (hp s))) (g_pdu c vbl s).
  Proof.
    intros O D F. unfold g_pdu. eapply gpost_bind; [apply gpost_assign; exact O|]. intros s' a t E O' S [z ->].
    assert (Eh : (length (hp s) <= length (hp s'))%nat) by (rewrite E, app_length; lia).
    eapply gpost_weaken; [apply g_pdu_ok; [exact O'|rewrite E; apply defaults_ext; exact D|rewrite E; apply fine_ext; exact F]|].
    intros s2 d [Fd (r & Pd)]. split; [exact Fd|]. exists r. destruct Pd as (p & x & A1 & A2 & A3 & A4 & A5 & A6 & A7). exists p, x. repeat split; try assumption; lia.
  Qed.
  Lemma gp_pdu_version s c1 c2 vbl v : okh P (hp s) -> defaults_ok (hp s) -> fine P (hp s) vbl -> gpost P s (Qpdu P (length (hp s))) (g_pdu_version c1 c2 vbl v s).
  Proof.
    intros O D F. unfold g_pdu_version. eapply gpost_bind; [apply gpost_assign; exact O|]. intros s' a t E O' S [z ->].
    assert (Eh : (length (hp s) <= length (hp s'))%nat) by (rewrite E, app_length; lia).
    assert (W : forall s2 d, Qpdu P (length (hp s')) s2 d -> Qpdu P (length (hp s)) s2 d).
    { intros s2 d [Fd (r & Pd)]. split; [exact Fd|]. exists r. destruct Pd as (p & x & A1 & A2 & A3 & A4 & A5 & A6 & A7). exists p, x. repeat split; try assumption; lia. }
    destruct (v =? 1); [|destruct (v =? 2); [|apply gpost_err; exact O']];
      (eapply gpost_weaken; [apply g_pdu_ok; [exact O'|rewrite E; apply defaults_ext; exact D|rewrite E; apply fine_ext; exact F]|exact W]).
  Qed.
  (** vbl from the heap, then PDU, then message *)
  Lemma gp_finish s n0 com v (two : bool) (x : G item) : okh P (hp s) -> fine P (hp s) com -> (n0 <= length (hp s))%nat ->
    gpost P s (Qpdu P n0) (x s) -> gpost P s (Qmsg P n0) (gbind x (fun pdu => on_heap (h_message (if two then CMessage_v2 else CMessage) v com pdu)) s).
  Proof.
    intros O Fc L X. eapply gpost_bind; [exact X|]. intros s' d t E O' S Q. apply g_message_ok; [exact O'|rewrite E; apply fine_ext; exact Fc|exact Q|rewrite E, app_length; lia|destruct two; auto].
  Qed.
  Lemma Qpdu_le n0 n1 s d : (n0 <= n1)%nat -> Qpdu P n1 s d -> Qpdu P n0 s d.
  Proof. intros L [Fd (r & Pd)]. split; [exact Fd|]. exists r. destruct Pd as (p & x & A1 & A2 & A3 & A4 & A5 & A6 & A7). exists p, x. repeat split; try assumption; lia. Qed.
  Lemma Qmsg_le n0 n1 s d : (n0 <= n1)%nat -> Qmsg P n1 s d -> Qmsg P n0 s d.
  Proof.
    intros L [Fd (e & r & (k & c' & l & v & kk & A1 & A2 & A3 & A4) & (p & x & B1 & B2 & B3 & B4 & B5 & B6 & B7))]. split; [exact Fd|]. exists e, r. split; [exists k, c', l, v, kk|exists p, x]; repeat split; try assumption; try apply A4; lia.
  Qed.
  Lemma gp_with_list s com v (two : bool) (y : H item) (g : item -> G item) : okh P (hp s) -> defaults_ok (hp s) -> fine P (hp s) com ->
    post P (hp s) (fun h' a => fine P h' a) (y (hp s)) ->
    (forall s' vbl, okh P (hp s') -> defaults_ok (hp s') -> fine P (hp s') vbl -> gpost P s' (Qpdu P (length (hp s'))) (g vbl s')) ->
    gpost P s (Qmsg P (length (hp s))) (gbind (on_heap y) (fun vbl => gbind (g vbl) (fun pdu => on_heap (h_message (if two then CMessage_v2 else CMessage) v com pdu))) s).
  Proof.
    intros O D Fc Y K. eapply gpost_bind; [apply gpost_heap; exact Y|]. intros s' vbl t E O' S Q.
    apply gp_finish; [exact O'|rewrite E; apply fine_ext; exact Fc|rewrite E, app_length; lia|].
    eapply gpost_weaken; [apply K; [exact O'|rewrite E; apply defaults_ext; exact D|exact Q]|]. intros s2 d. apply Qpdu_le. rewrite E, app_length. lia.
  Qed.
  Lemma keep_one h c oid : okh P h -> fine P h oid -> forall two, post P h (fun h' a => fine P h' a) ((vb <== h_null_binding c oid ;; h_list_of two [vb]) h).
  Proof.
    intros O F two. apply (post_bind P _ _ _ (fun h' a => fine P h' a)); [apply keep_null_binding; assumption|]. intros t a O' F'. apply keep_list_of; [exact O'|]. constructor; [exact F'|constructor].
  Qed.
  Lemma gp_create_get s f oid com v : okh P (hp s) -> defaults_ok (hp s) -> fine P (hp s) oid -> fine P (hp s) com -> gpost P s (Qmsg P (length (hp s))) (g_create_get f oid com v s).
  Proof.
    intros O D Fo Fc. destruct f; cbn [g_create_get].
    - apply (gp_with_list s com 0 false); [exact O|exact D|exact Fc|apply keep_one; assumption|intros; apply gp_pdu; assumption].
    - apply (gp_with_list s com 1 true); [exact O|exact D|exact Fc| |intros; apply gp_pdu; assumption].
      apply (post_bind P _ _ _ (fun h' a => Forall (fine P h') a)); [apply post_rd; [exact O|]; intros a E; eapply fine_elems; [exact O|exact Fo|exact E]|]. intros t a O' F'.
      apply (post_bind P _ _ _ (fun h' a => Forall (fine P h') a)).
      + apply (keep_mapM P _ (fine P)); [intros; apply fine_ext; assumption|intros; apply keep_null_binding; assumption|exact O'|exact F'].
      + intros t' a' O'' F''. apply keep_list_of; assumption.
    - destruct (v =? 1); [|destruct (v =? 2); [|apply gpost_err; exact O]].
      + apply (gp_with_list s com 0 false); [exact O|exact D|exact Fc|apply keep_one; assumption|intros; apply gp_pdu_version; assumption].
      + apply (gp_with_list s com 1 true); [exact O|exact D|exact Fc|apply keep_one; assumption|intros; apply gp_pdu_version; assumption].
  Qed.
  Lemma gp_create_getnext s f vbl com v : okh P (hp s) -> defaults_ok (hp s) -> fine P (hp s) vbl -> fine P (hp s) com -> gpost P s (Qmsg P (length (hp s))) (g_create_getnext f vbl com v s).
  Proof.
    intros O D Fo Fc. destruct f; cbn [g_create_getnext].
    - apply (gp_finish s (length (hp s)) com 0 false); [exact O|exact Fc|lia|]. apply gp_pdu; assumption.
    - apply gpost_err. exact O.
    - destruct (v =? 1); [apply (gp_finish s (length (hp s)) com 0 false)|apply (gp_finish s (length (hp s)) com 1 true)]; try exact O; try exact Fc; try lia; apply gp_pdu_version; assumption.
  Qed.
  Lemma keep_set h c oid ty v : okh P h -> defaults_ok h -> fine P h oid -> fine P h v -> forall two, post P h (fun h' a => fine P h' a)
    ((o <== h_objectid oid ;; v <== h_typed ty v ;; vb <== h_varbind c o v ;; h_list_of two [vb]) h).
  Proof.
    intros O D Fo Fv two. apply (post_bind P _ _ _ (fun h' a => fine P h' a)); [apply keep_objectid; assumption|]. intros t1 a1 O1 F1.
    apply (post_bind P _ _ _ (fun h' a => fine P h' a)); [apply keep_typed; [exact O1|apply defaults_ext; exact D|apply fine_ext; exact Fv]|]. intros t2 a2 O2 F2.
    apply (post_bind P _ _ _ (fun h' a => fine P h' a)); [apply keep_varbind; [exact O2|apply fine_ext; exact F1|exact F2]|]. intros t3 a3 O3 F3.
    apply keep_list_of; [exact O3|]. constructor; [exact F3|constructor].
  Qed.
  Lemma gp_create_set s oid ty v com ver : okh P (hp s) -> defaults_ok (hp s) -> fine P (hp s) oid -> fine P (hp s) v -> fine P (hp s) com ->
    gpost P s (Qmsg P (length (hp s))) (g_create_set oid ty v com ver s).
  Proof.
    intros O D Fo Fv Fc. unfold g_create_set. destruct (ver =? 1); [|destruct (ver =? 2); [|apply gpost_err; exact O]].
    - apply (gp_with_list s com 0 false); [exact O|exact D|exact Fc|apply keep_set; assumption|intros; apply gp_pdu_version; assumption].
    - apply (gp_with_list s com 1 true); [exact O|exact D|exact Fc|apply keep_set; assumption|intros; apply gp_pdu_version; assumption].
  Qed.
End Methods.

(** ** A whole call *)
Definition put_on (q : list (item * address)) : list gevent := map (fun p => GQueued (fst p) (snd p)) q.
(** What was put on the queue is a message made in the call (or None). *)
Definition new_message (P : loc -> Prop) (h h' : heap) (p : item * address) : Prop :=
  fst p = INone \/ exists n, fst p = IRef n /\ (length h <= n < length h')%nat /\ ~ P n.
Record called (P : loc -> Prop) (s : hstate) (y : hstate * res item) : Prop := {
  cd_ok : okh P (hp (fst y));
  cd_len : (length (hp s) <= length (hp (fst y)))%nat;
  cd_kept : forall l, P l -> nth_error (hp (fst y)) l = nth_error (hp s) l;
  cd_objs : forall l c d, nth_error (hp s) l = Some (PObj c d) -> nth_error (hp (fst y)) l = Some (PObj c d);
  cd_known : known (fst y) = known s;
  cd_stack : h_stack (fst y) = h_stack s;
  cd_queue : exists q, h_out (fst y) = h_out s ++ q /\ h_log (fst y) = h_log s ++ put_on q /\ Forall (new_message P (hp s) (hp (fst y))) q;
  cd_result : forall i, snd y = Ok i -> fine P (hp (fst y)) i }.
Lemma grown_kept (h t : heap) l : (l < length h)%nat -> nth_error (h ++ t) l = nth_error h l.
Proof. intros L. apply nth_error_app1. exact L. Qed.
Lemma called_heap P s (Q : hstate -> item -> Prop) y : okh P (hp s) -> gpost P s Q y -> (forall s' i, Q s' i -> fine P (hp s') i) -> called P s y.
Proof.
  intros O ((t & E) & O' & (K1 & K2 & K3 & K4 & K5) & K) F. split; try assumption.
  - rewrite E, app_length. lia.
  - intros l L. rewrite E. apply grown_kept. apply O. exact L.
  - intros l c d L. rewrite E. apply nth_ext. exact L.
  - exists []. cbn. rewrite !app_nil_r. repeat split; auto.
  - intros i Ei. apply F. auto.
Qed.
Lemma key_num_int f h x : int_obj h x -> exists z, key_num f h (IRef x) = Ok z.
Proof.
  intros (c & z & E & K). exists z. unfold key_num, is_a, class_at. rewrite E. cbn [attr_of assoc attr_eqb bind]. rewrite E.
  assert (issubclass c CInteger = true) as ->. { unfold kind_of in K. destruct (issubclass c CInteger); [reflexivity|]. repeat match type of K with context [if ?b then _ else _] => destruct b end; discriminate. }
  cbn. destruct f; reflexivity.
Qed.
(** A request: one message is queued and its id is returned. *)
Definition requested (P : loc -> Prop) (s : hstate) (f : flavour) (dst : address) (cb : cbval) (s' : hstate) (i : item) : Prop :=
  exists n x d z, i = IRef x /\ h_out s' = h_out s ++ [(IRef n, dst)] /\ h_log s' = h_log s ++ [GQueued (IRef n) dst] /\ fine P (hp s') (IRef n) /\
    last_message (length (hp s)) (hp s') (IRef n) d /\ pdu_with (length (hp s)) (hp s') d (IRef x) /\ key_num f (hp s') (IRef x) = Ok z /\
    h_cbs s' = e_set f (hp s') (h_cbs s) z (match f with FSM => IRef x | _ => IInt z end) cb.
Definition gpost' (P : loc -> Prop) (s : hstate) (Q : hstate -> item -> Prop) (y : hstate * res item) : Prop :=
  (exists t, hp (fst y) = hp s ++ t) /\ okh P (hp (fst y)) /\ known (fst y) = known s /\ h_stack (fst y) = h_stack s /\
  match snd y with Ok i => Q (fst y) i | Err _ => same s (fst y) end.
Lemma gp_request P s f (x : G item) dst cb : okh P (hp s) -> gpost P s (Qmsg P (length (hp s))) (x s) ->
  gpost' P s (requested P s f dst cb) (gbind x (fun m => g_queue f m dst cb) s).
Proof.
  intros O ((t & E) & O' & Sm & K). unfold gbind. destruct (x s) as [s1 [m|e]]; cbn [fst snd] in *.
  2: { split; [exists t; exact E|]. split; [exact O'|]. destruct Sm as (A & B & C & D & F). cbn. repeat split; assumption. }
  destruct (K m eq_refl) as (Fm & d & r & LM & PW). assert (LM' := LM). destruct LM as (n & c & l & v & k & -> & L1 & L2 & N & C).
  assert (PW' := PW). destruct PW as (p & xx & Ed & -> & A & I & X1 & X2 & X3).
  destruct (key_num_int f (hp s1) xx I) as [z Z]. destruct Sm as (S1 & S2 & S3 & S4 & S5).
  unfold g_queue, gbind, g_put, on_heap, rd, g_register, gret. cbn [hp known h_out h_log h_stack h_cbs h_next].
  assert (attr_of (hp s1) (IRef n) Adata = Ok d) as Ad by (cbn [attr_of]; rewrite N; reflexivity).
  rewrite Ad. cbn [bind]. rewrite A. cbn [hp known h_out h_log h_stack h_cbs h_next]. rewrite Z. cbn [fst snd].
  split; [exists t; exact E|]. split; [exact O'|]. split; [exact S1|]. split; [exact S4|].
  exists n, xx, d, z. cbn [hp known h_out h_log h_stack h_cbs h_next]. rewrite S2, S5, S3. repeat (split; [first [reflexivity|assumption]|]). reflexivity.
Qed.
Lemma called_request P s f dst cb y : okh P (hp s) -> gpost' P s (requested P s f dst cb) y -> called P s y.
Proof.
  intros O ((t & E) & O' & K1 & K2 & K). split; try assumption.
  - rewrite E, app_length. lia.
  - intros l L. rewrite E. apply grown_kept. apply O. exact L.
  - intros l c d L. rewrite E. apply nth_ext. exact L.
  - destruct (snd y) as [i|e].
    + destruct K as (n & x & d & z & -> & Q1 & Q2 & F & (n' & c & l & v & k & X & L1 & L2 & _) & _). injection X as <-.
      exists [(IRef n, dst)]. split; [exact Q1|]. split; [exact Q2|]. constructor; [|constructor]. right. exists n. split; [reflexivity|]. split; [lia|]. apply (fine_ref_inv _ _ _ F).
    + destruct K as (A & B & C & D & F). exists []. cbn. rewrite !app_nil_r. repeat split; auto.
  - intros i Ei. rewrite Ei in K. destruct K as (n & x & d & z & -> & _ & _ & F & _ & (p & x' & -> & X & A & I & L1 & L2 & L3) & _). injection X as <-.
    apply fine_ref; [exact L2|]. intros Px. destruct O as [O1 _]. specialize (O1 _ Px). lia.
Qed.
Lemma gpost'_err P s Q e : okh P (hp s) -> gpost' P s Q (s, Err e).
Proof. intros O. split; [exists []; cbn; rewrite app_nil_r; reflexivity|]. split; [exact O|]. repeat split. Qed.
Lemma request_ok P s f a dst cb : okh P (hp s) -> defaults_ok (hp s) -> Forall (fine P (hp s)) (call_items a) -> request_of a = Some (dst, cb) ->
  gpost' P s (requested P s f dst cb) (g_call f a s).
Proof.
  intros O D F R. destruct a; try discriminate R; injection R as -> ->; cbn [call_items] in F; cbn [g_call]; repeat match goal with H : Forall _ (_ :: _) |- _ => inversion H; clear H; subst end.
  - apply gp_request; [exact O|]. apply gp_create_get; assumption.
  - apply gp_request; [exact O|]. apply gp_create_getnext; assumption.
  - destruct f.
    + assert (X : gpost P s (Qmsg P (length (hp s))) (gbind (g_pdu CGetNext vbl) (fun pdu => g_message1 community pdu) s)).
      { apply (gp_finish P s (length (hp s)) community 0 false); [exact O|assumption|lia|]. apply gp_pdu; assumption. }
      pose proof (gp_request P s FV1 _ dst cb O X) as Y. unfold gbind in Y |- *. destruct (g_pdu CGetNext vbl s) as [s1 [p|e]]; [|exact Y]. exact Y.
    + unfold gbind, g_assign, gerr. cbn. split; [exists []; cbn; rewrite app_nil_r; reflexivity|]. split; [exact O|]. repeat split.
    + apply gpost'_err. exact O.
  - destruct f; [apply gpost'_err; exact O|apply gpost'_err; exact O|]. apply gp_request; [exact O|]. apply gp_create_set; assumption.
Qed.
Lemma set_cell_len l c h : (l < length h)%nat -> length (set_cell l c h) = length h.
Proof. intros L. unfold set_cell. rewrite app_length, firstn_length. cbn [length]. rewrite skipn_length. lia. Qed.
Lemma set_cell_at l c h : (l < length h)%nat -> nth_error (set_cell l c h) l = Some c.
Proof. intros L. unfold set_cell. rewrite nth_error_app2; rewrite firstn_length; [|lia]. replace (l - Nat.min l (length h))%nat with 0%nat by lia. reflexivity. Qed.
Lemma nth_skipn {A} n (l : list A) k : nth_error (skipn n l) k = nth_error l (n + k).
Proof. revert l. induction n; intros [|x l]; cbn; auto. destruct k; reflexivity. Qed.
Lemma set_cell_other l c h x : (l < length h)%nat -> x <> l -> nth_error (set_cell l c h) x = nth_error h x.
Proof.
  intros L N. unfold set_cell. destruct (Nat.lt_ge_cases x l).
  - rewrite nth_error_app1; [|rewrite firstn_length; lia]. rewrite <- (firstn_skipn l h) at 2. rewrite nth_error_app1; [reflexivity|]. rewrite firstn_length. lia.
  - rewrite nth_error_app2; rewrite firstn_length; [|lia]. replace (x - Nat.min l (length h))%nat with (S (x - S l)) by lia. cbn [nth_error].
    rewrite nth_skipn. f_equal. lia.
Qed.
Lemma okh_set P h l c : okh P h -> (l < length h)%nat -> ~ P l -> (forall i, In i (cell_items c) -> fine P h i) -> okh P (set_cell l c h).
Proof.
  intros [O1 O2] L N F. split; [intros x Px; rewrite set_cell_len by exact L; auto|].
  intros x cx y E J. rewrite set_cell_len by exact L. destruct (Nat.eq_dec x l) as [->|D].
  - rewrite set_cell_at in E by exact L. injection E as <-. unfold refs in J. apply in_flat_map in J as (i & Ji & Jy). destruct (F i Ji y Jy). tauto.
  - rewrite set_cell_other in E by assumption. eapply O2; eassumption.
Qed.
Lemma g_call_called P s f a : okh P (hp s) -> defaults_ok (hp s) -> Forall (fine P (hp s)) (call_items a) -> called P s (g_call f a s).
Proof.
  intros O D F. destruct (request_of a) as [[dst cb]|] eqn:R; [eapply called_request; [exact O|apply request_ok; eassumption]|].
  assert (FH : forall x : H item, post P (hp s) (fun h' i => fine P h' i) (x (hp s)) -> called P s (on_heap x s)).
  { intros x X. eapply called_heap; [exact O|apply gpost_heap; exact X|]. auto. }
  assert (PUT : forall c v com pdu dst, c = CMessage \/ c = CMessage_v2 -> fine P (hp s) com -> fine P (hp s) pdu ->
    called P s (gbind (on_heap (h_message c v com pdu)) (fun m => gbind (g_put m dst) (fun _ => gret INone)) s)).
  { intros c v com pdu dst C Fc Fp. destruct (gpost_heap P s _ _ (keep_message P (hp s) c v com pdu O Fc Fp)) as ((t & E) & O' & (K1 & K2 & K3 & K4 & K5) & K).
    unfold gbind. destruct (on_heap (h_message c v com pdu) s) as [s1 [m|e]] eqn:X; cbn [fst snd] in *.
    2: { split; cbn [fst snd]; try assumption; [rewrite E, app_length; lia|intros l L; rewrite E; apply grown_kept; apply O; exact L|intros l c' d L; rewrite E; apply nth_ext; exact L|].
         exists []. cbn. rewrite !app_nil_r. repeat split; auto. }
    unfold g_put, gret. split; cbn [fst snd hp known h_out h_log h_stack]; try assumption.
    - rewrite E, app_length. lia.
    - intros l L. rewrite E. apply grown_kept. apply O. exact L.
    - intros l c' d L. rewrite E. apply nth_ext. exact L.
    - exists [(m, dst)]. rewrite K2, K5. repeat split. constructor; [|constructor]. right.
      unfold on_heap in X. destruct (h_message c v com pdu (hp s)) as [h' r'] eqn:Y. injection X as <- ->. cbn [hp] in *. apply message_ok in Y; [|exact C].
      destruct Y as (n & c' & l & v' & k & -> & L1 & L2 & _). exists n. split; [reflexivity|]. split; [lia|]. apply (fine_ref_inv _ _ _ (K _ eq_refl)).
    - intros i Ei. injection Ei as <-. apply fine_plain. reflexivity. }
  assert (ERR : forall e, called P s (s, Err e)).
  { intros e. split; cbn [fst snd]; auto; [exists []; cbn; rewrite !app_nil_r; repeat split; auto|discriminate]. }
  destruct a; try discriminate R; cbn [call_items] in F; cbn [g_call]; repeat match goal with H : Forall _ (_ :: _) |- _ => inversion H; clear H; subst end.
  - destruct f; [apply PUT; auto|apply PUT; auto|]. destruct ((version =? 1) || (version =? 2)); [apply ERR|].
    unfold gbind, g_put, gret. split; cbn [fst snd hp known h_out h_log h_stack]; auto.
    + exists [(INone, dst)]. repeat split. constructor; [left; reflexivity|constructor].
    + intros i Ei. injection Ei as <-. apply fine_plain. reflexivity.
  - apply FH. destruct (issubclass c CBulkPDU); [apply keep_bulk|apply keep_pdu]; try assumption;
      (destruct vbl as [v|]; cbn [opt_item]; [left; match goal with H : Forall _ _ |- _ => inversion H; assumption end|]); [apply default_fine; [exact D|lia]|].
    unfold default_of. destruct (issubclass c CPDU_v2); apply default_fine; first [exact D|lia].
  - apply FH. destruct two; [apply keep_varbindlist2|apply keep_sequenceof]; try assumption;
      (destruct value as [v|]; cbn [opt_item]; [left; match goal with H : Forall _ _ |- _ => inversion H; assumption end|]); apply default_fine; first [exact D|lia].
  - apply FH. apply keep_varbind; assumption.
  - apply FH. apply keep_objectid; assumption.
  - apply FH. apply keep_trappdu; [exact O|]. repeat (constructor; [assumption|]). constructor.
  - clear ERR. assert (ERR : forall e, called P s (mkH (hp s) (known s) (h_next s) (h_out s) (h_cbs s) (h_stack s) (h_log s), Err e)).
    { intros e. split; cbn [fst snd hp known h_out h_log h_stack]; auto; [exists []; cbn; rewrite !app_nil_r; repeat split; auto|discriminate]. }
    unfold on_heap, h_append. destruct (negb _); [apply ERR|]. destruct (attr_of (hp s) vbl Avalue) as [j|e] eqn:A; [|apply ERR].
    match goal with H : fine P (hp s) vbl |- _ => pose proof (fine_attr _ _ _ _ _ O H A) as Fj end.
    destruct j as [| | |l]; try apply ERR. destruct (nth_error (hp s) l) as [[y|c d]|] eqn:N; try apply ERR.
    destruct (fine_ref_inv _ _ _ Fj) as [L NP].
    split; cbn [fst snd hp known h_out h_log h_stack]; auto.
    + apply okh_set; try assumption. cbn [cell_items]. intros i J. apply in_app_or in J as [J|[<-|[]]]; [|assumption]. apply (fine_cell P (hp s) l (PList y) O N NP). exact J.
    + rewrite set_cell_len by exact L. lia.
    + intros k Pk. apply set_cell_other; [exact L|]. intros ->. contradiction.
    + intros k c d E. rewrite set_cell_other; [exact E|exact L|]. intros ->. congruence.
    + exists []. cbn. rewrite !app_nil_r. repeat split; auto.
    + intros i Ei. injection Ei as <-. apply fine_plain. reflexivity.
Qed.
(** Only append() changes an object. *)
Lemma g_call_grows P s f a : okh P (hp s) -> defaults_ok (hp s) -> Forall (fine P (hp s)) (call_items a) -> (forall v x, a <> HAppend v x) -> exists t, hp (fst (g_call f a s)) = hp s ++ t.
Proof.
  intros O D F N. destruct (request_of a) as [[dst cb]|] eqn:R; [destruct (request_ok P s f a dst cb O D F R) as [E _]; exact E|].
  assert (FH : forall x : H item, grows x -> exists t, hp (fst (on_heap x s)) = hp s ++ t).
  { intros x X. unfold on_heap. destruct (X (hp s)) as [t E]. destruct (x (hp s)). cbn in *. eauto. }
  assert (NIL : exists t, hp s = hp s ++ t) by (exists []; rewrite app_nil_r; reflexivity).
  destruct a; try discriminate R; cbn [g_call].
  - assert (PUT : forall c v, exists t, hp (fst (gbind (on_heap (h_message c v community pdu)) (fun m => gbind (g_put m dst) (fun _ => gret INone)) s)) = hp s ++ t).
    { intros c v. destruct (FH _ (grows_message c v community pdu)) as [t E]. exists t. rewrite <- E. unfold gbind. destruct (on_heap _ s) as [s1 [m|e]]; reflexivity. }
    destruct f; [apply PUT|apply PUT|]. destruct (_ || _); exact NIL.
  - apply FH. destruct (issubclass c CBulkPDU); [apply grows_bulk|apply grows_pdu].
  - apply FH. destruct two; [apply grows_varbindlist2|apply grows_sequenceof].
  - apply FH. apply grows_varbind.
  - apply FH. apply grows_objectid.
  - apply FH. apply grows_trappdu.
  - exfalso. eapply N. reflexivity.
Qed.
