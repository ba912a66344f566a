(** * The library's calls only add to the heap, and never let out what nobody referred to *)
From Coq Require Import ZArith List Bool Lia.
From Verif Require Import PyBase Classes Values Codec Manager Heap SpecHeap ProofsHeap.
Import ListNotations.
Open Scope Z_scope.

(** [P] is a set of objects to which only objects of [P] refer; there are no dangling references. *)
Definition okh (P : loc -> Prop) (h : heap) : Prop :=
  (forall l, P l -> (l < length h)%nat) /\
  (forall l c x, nth_error h l = Some c -> In x (refs c) -> (x < length h)%nat /\ (P x -> P l)).
Definition fine (P : loc -> Prop) (h : heap) (i : item) : Prop := forall x, In x (item_refs i) -> (x < length h)%nat /\ ~ P x.
Definition post (P : loc -> Prop) (h : heap) {A} (Q : heap -> A -> Prop) (y : heap * res A) : Prop :=
  exists t, fst y = h ++ t /\ okh P (fst y) /\ forall a, snd y = Ok a -> Q (fst y) a.

Lemma fine_ext P h t i : fine P h i -> fine P (h ++ t) i.
Proof. intros F x J. destruct (F x J). rewrite app_length. split; [lia|assumption]. Qed.
Lemma fine_plain P h i : item_refs i = [] -> fine P h i.
Proof. intros E x J. rewrite E in J. destruct J. Qed.
Lemma fine_ref P h l : (l < length h)%nat -> ~ P l -> fine P h (IRef l).
Proof. intros L N x [<-|[]]. auto. Qed.
Lemma fine_ref_inv P h l : fine P h (IRef l) -> (l < length h)%nat /\ ~ P l.
Proof. intros F. apply F. left. reflexivity. Qed.
Lemma refs_in i c : In i (cell_items c) -> forall x, In x (item_refs i) -> In x (refs c).
Proof. intros J x K. unfold refs. apply in_flat_map. eauto. Qed.
Lemma fine_cell P h l c : okh P h -> nth_error h l = Some c -> ~ P l -> forall i, In i (cell_items c) -> fine P h i.
Proof. intros [_ O] E N i J x K. destruct (O l c x E (refs_in i c J x K)) as [A B]. split; [exact A|]. intros X. apply N. auto. Qed.

Lemma post_bind P h {A B} (x : H A) (f : A -> H B) (Q : heap -> A -> Prop) (R : heap -> B -> Prop) :
  post P h Q (x h) -> (forall t a, okh P (h ++ t) -> Q (h ++ t) a -> post P (h ++ t) R (f a (h ++ t))) -> post P h R (hbind x f h).
Proof.
  intros (t & E & O & K) F. unfold hbind. destruct (x h) as [h' [a|e]]; cbn [fst snd] in *; subst h'.
  - destruct (F t a O (K a eq_refl)) as (t' & E' & O' & K'). exists (t ++ t'). rewrite E', app_assoc. split; [reflexivity|]. rewrite <- E'. split; assumption.
  - exists t. cbn. split; [reflexivity|]. split; [exact O|]. discriminate.
Qed.
Lemma post_ret P h {A} (Q : heap -> A -> Prop) (a : A) : okh P h -> Q h a -> post P h Q (hret a h).
Proof. intros O K. exists []. cbn. rewrite app_nil_r. split; [reflexivity|]. split; [exact O|]. intros b E. injection E as <-. exact K. Qed.
Lemma post_lift P h {A} (Q : heap -> A -> Prop) (r : res A) : okh P h -> (forall a, r = Ok a -> Q h a) -> post P h Q (hlift r h).
Proof. intros O K. exists []. cbn. rewrite app_nil_r. auto. Qed.
Lemma post_rd P h {A} (Q : heap -> A -> Prop) (f : heap -> res A) : okh P h -> (forall a, f h = Ok a -> Q h a) -> post P h Q (rd f h).
Proof. intros O K. exists []. cbn. rewrite app_nil_r. auto. Qed.
Lemma okh_new P h c : okh P h -> (forall i, In i (cell_items c) -> fine P h i) -> okh P (h ++ [c]).
Proof.
  intros [O1 O2] F. split.
  - intros l J. rewrite app_length. specialize (O1 l J). lia.
  - intros l d x E J. rewrite app_length. destruct (Nat.lt_ge_cases l (length h)) as [L|L].
    + rewrite nth_error_app1 in E by exact L. destruct (O2 l d x E J). split; [lia|assumption].
    + rewrite nth_error_app2 in E by exact L. destruct (l - length h)%nat as [|[|?]] eqn:D; try discriminate. injection E as <-.
      unfold refs in J. apply in_flat_map in J as (i & J & K). destruct (F i J x K) as [A N]. split; [lia|contradiction].
Qed.
Lemma post_new P h c (Q : heap -> item -> Prop) : okh P h -> (forall i, In i (cell_items c) -> fine P h i) ->
  Q (h ++ [c]) (IRef (length h)) -> post P h Q (new c h).
Proof. intros O F K. exists [c]. cbn. split; [reflexivity|]. split; [apply okh_new; assumption|]. intros a E. injection E as <-. exact K. Qed.
Lemma new_fine P h c : okh P h -> fine P (h ++ [c]) (IRef (length h)).
Proof. intros [O _]. apply fine_ref; [rewrite app_length; cbn; lia|]. intros J. specialize (O _ J). lia. Qed.
Lemma post_weaken P h {A} (Q R : heap -> A -> Prop) y : post P h Q y -> (forall h' a, Q h' a -> R h' a) -> post P h R y.
Proof. intros (t & E & O & K) W. exists t. auto. Qed.

(** ** Reading *)
Lemma fine_attr P h v a i : okh P h -> fine P h v -> attr_of h v a = Ok i -> fine P h i.
Proof.
  intros O F E. destruct v as [| | |l]; try discriminate. cbn [attr_of] in E. destruct (nth_error h l) as [[x|c d]|] eqn:El; try discriminate.
  destruct (fine_ref_inv _ _ _ F) as [_ N]. assert (K : fine P h INone) by (apply fine_plain; reflexivity).
  destruct (assoc d a) as [j|] eqn:As; [|destruct a; try discriminate; injection E as <-; exact K]. injection E as <-. apply (fine_cell P h l (PObj c d) O El N). cbn.
  clear - As. induction d as [|[b k] d IH]; [discriminate|]. cbn [assoc] in As. cbn. destruct (attr_eqb b a); [left; congruence|right; auto].
Qed.
Lemma fine_list P h v is : okh P h -> fine P h v -> list_at h v = Ok is -> Forall (fine P h) is.
Proof.
  intros O F E. destruct v as [| | |l]; try discriminate. cbn [list_at] in E. destruct (nth_error h l) as [[x|c d]|] eqn:El; try discriminate.
  injection E as <-. destruct (fine_ref_inv _ _ _ F) as [_ N]. apply Forall_forall. intros i J. apply (fine_cell P h l (PList x) O El N). exact J.
Qed.
Lemma fine_elems P h v is : okh P h -> fine P h v -> elems h v = Ok is -> Forall (fine P h) is.
Proof.
  intros O F E. destruct v as [| |s|l]; try discriminate.
  - injection E as <-. apply Forall_forall. intros i J. apply in_map_iff in J as (x & <- & _). apply fine_plain. reflexivity.
  - cbn [elems] in E. destruct (nth_error h l) as [[x|c d]|] eqn:El; try discriminate.
    + injection E as <-. destruct (fine_ref_inv _ _ _ F) as [_ N]. apply Forall_forall. intros i J. apply (fine_cell P h l (PList x) O El N). exact J.
    + destruct (issubclass c CObjectID).
      * destruct (attr_of h (IRef l) Avalue) as [i|] eqn:A; cbn [bind] in E; [|discriminate]. pose proof (fine_attr _ _ _ _ _ O F A).
        destruct i; try discriminate; eapply fine_list; eassumption.
      * destruct (issubclass c CSequence); [|discriminate].
        destruct (attr_of h (IRef l) Avalue) as [i|] eqn:A; cbn [bind] in E; [|discriminate]. pose proof (fine_attr _ _ _ _ _ O F A). eapply fine_list; eassumption.
Qed.

(** ** Constructors *)
Local Notation is_fine P := (fun h' a => fine P h' a).
Ltac sfine := first [assumption | apply fine_plain; reflexivity | apply new_fine; assumption | apply fine_ext; sfine].
Ltac fine_items := cbn [cell_items map snd In]; let i := fresh "i" in let J := fresh "J" in intros i J; repeat (destruct J as [<-|J]; [sfine|]); try destruct J.

Lemma keep_new P h c : okh P h -> (forall i, In i (cell_items c) -> fine P h i) -> post P h (is_fine P) (new c h).
Proof. intros O F. apply post_new; [exact O|exact F|]. apply new_fine. exact O. Qed.
Lemma keep_integer P h c v : okh P h -> post P h (is_fine P) (h_integer c v h).
Proof.
  intros O. destruct v; cbn [h_integer]; try (apply post_lift; [exact O|discriminate]).
  destruct (_ && _); [|apply post_lift; [exact O|discriminate]]. apply keep_new; [exact O|]. fine_items.
Qed.
Lemma keep_copy P h v : okh P h -> fine P h v -> post P h (is_fine P) (py_copy v h).
Proof.
  intros O F. destruct v; cbn [py_copy]; try (apply post_ret; [exact O|exact F]).
  destruct (nth_error h l) as [c|] eqn:E; [|exists []; cbn; rewrite app_nil_r; split; [reflexivity|]; split; [exact O|discriminate]].
  apply keep_new; [exact O|]. intros i J. destruct (fine_ref_inv _ _ _ F) as [_ N]. eapply fine_cell; eassumption.
Qed.
Lemma keep_octetstring P h c v : okh P h -> fine P h v -> post P h (is_fine P) (h_octetstring c v h).
Proof.
  intros O F. apply (post_bind P h _ _ (is_fine P)); [apply keep_copy; assumption|]. intros t a O' F'. apply keep_new; [exact O'|]. fine_items.
Qed.
Lemma keep_ipaddress P h c v : okh P h -> fine P h v -> post P h (is_fine P) (h_ipaddress c v h).
Proof.
  intros O F. destruct v; cbn [h_ipaddress]; try (apply keep_new; [exact O|]; fine_items; fail).
  - destruct (negb _); [apply post_lift; [exact O|discriminate]|]. apply (post_bind P h _ _ (fun _ _ => True)); [apply post_lift; auto|].
    intros t a O' _. apply keep_new; [exact O'|]. fine_items.
  - destruct (nth_error h l) as [[x|]|]; try (apply keep_new; [exact O|]; fine_items; fail).
    destruct (negb _); [exists []; cbn; rewrite app_nil_r; split; [reflexivity|]; split; [exact O|discriminate]|].
    apply (post_bind P h _ _ (is_fine P)); [apply keep_copy; assumption|]. intros t a O' F'. apply keep_new; [exact O'|]. fine_items.
Qed.
Lemma fine_ints P h zs : Forall (fine P h) (map IInt zs).
Proof. apply Forall_forall. intros i J. apply in_map_iff in J as (z & <- & _). apply fine_plain. reflexivity. Qed.
Lemma keep_oid_of P h x : okh P h -> Forall (fine P h) x -> post P h (is_fine P) ((v <== new (PList x) ;; new (PObj CObjectID [(Avalue, v)])) h).
Proof.
  intros O F. apply (post_bind P h _ _ (is_fine P)); [apply keep_new; [exact O|apply Forall_forall; exact F]|].
  intros t a O' F'. apply keep_new; [exact O'|]. fine_items.
Qed.
Lemma keep_objectid P h v : okh P h -> fine P h v -> post P h (is_fine P) (h_objectid v h).
Proof.
  intros O F. destruct v; cbn [h_objectid].
  - apply keep_new; [exact O|]; fine_items.
  - apply (keep_oid_of P h [IInt z]); [exact O|apply (fine_ints P h [z])].
  - apply (post_bind P h _ _ (fun _ _ => True)); [apply post_lift; auto|]. intros t a O' _. apply keep_oid_of; [exact O'|apply fine_ints].
  - destruct (nth_error h l) as [[x|c d]|] eqn:E; [|destruct (issubclass c CObjectID)|]; try (exists []; cbn; rewrite app_nil_r; split; [reflexivity|]; split; [exact O|discriminate]).
    + apply keep_oid_of; [exact O|]. destruct (fine_ref_inv _ _ _ F) as [_ N]. apply Forall_forall. intros i J. apply (fine_cell P h l (PList x) O E N). exact J.
    + apply (post_bind P h _ _ (fun h' a => Forall (fine P h') a)).
      * apply post_rd; [exact O|]. intros a. destruct (attr_of h (IRef l) Avalue) as [i|] eqn:A; cbn [bind]; [|discriminate]. intros Q. eapply fine_list; [exact O| |exact Q]. eapply fine_attr; eassumption.
      * intros t a O' F'. apply keep_oid_of; assumption.
Qed.
Lemma keep_null P h : okh P h -> post P h (is_fine P) (h_null h).
Proof. intros O. apply keep_new; [exact O|]. fine_items. Qed.
Lemma keep_sequence P h c v : okh P h -> fine P h v -> post P h (is_fine P) (h_sequence c v h).
Proof.
  intros O F. destruct v; cbn [h_sequence].
  - apply (post_bind P h _ _ (is_fine P)); [apply keep_new; [exact O|fine_items]|]. intros t a O' F'. apply keep_new; [exact O'|]. fine_items.
  - apply (post_bind P h _ _ (fun _ _ => True)); [apply post_rd; auto|]. intros t a O' _. apply keep_new; [exact O'|]. fine_items.
  - apply (post_bind P h _ _ (fun _ _ => True)); [apply post_rd; auto|]. intros t a O' _. apply keep_new; [exact O'|]. fine_items.
  - apply (post_bind P h _ _ (fun _ _ => True)); [apply post_rd; auto|]. intros t a O' _. apply keep_new; [exact O'|]. fine_items.
Qed.
(** A list given as an argument: the user's, or one that is empty (a default argument) *)
Definition larg (P : loc -> Prop) (h : heap) (v : item) : Prop := fine P h v \/ exists l, v = IRef l /\ nth_error h l = Some (PList []).
Lemma larg_ext P h t v : larg P h v -> larg P (h ++ t) v.
Proof. intros [F|(l & -> & E)]; [left; apply fine_ext; exact F|right; exists l; split; [reflexivity|apply nth_ext; exact E]]. Qed.
Lemma larg_elems P h v is : okh P h -> larg P h v -> elems h v = Ok is -> Forall (fine P h) is.
Proof. intros O [F|(l & -> & E)] X; [eapply fine_elems; eassumption|]. cbn [elems] in X. rewrite E in X. injection X as <-. constructor. Qed.
Lemma keep_sequenceof P h c k v : okh P h -> larg P h v -> post P h (is_fine P) (h_sequenceof c k v h).
Proof.
  intros O F. unfold h_sequenceof. apply (post_bind P h _ _ (fun h' a => Forall (fine P h') a)).
  - apply post_rd; [exact O|]. intros a. destruct (h_truthy h v) as [[|]|]; cbn [bind]; try discriminate.
    + destruct (elems h v) as [l|] eqn:E; cbn [bind]; [|discriminate]. destruct (check_all h k l); cbn [bind]; [|discriminate]. intros Q. injection Q as <-. eapply larg_elems; eassumption.
    + intros Q. injection Q as <-. constructor.
  - intros t a O' F'. apply (post_bind P (h ++ t) _ _ (is_fine P)); [apply keep_new; [exact O'|apply Forall_forall; exact F']|].
    intros t' a' O'' F''. apply keep_new; [exact O''|]. fine_items.
Qed.
Lemma keep_varbind P h c n v : okh P h -> fine P h n -> fine P h v -> post P h (is_fine P) (h_varbind c n v h).
Proof.
  intros O Fn Fv. unfold h_varbind. apply (post_bind P h _ _ (fun _ _ => True)); [apply post_rd; auto|]. intros t1 [] O1 _.
  apply (post_bind P _ _ _ (fun _ _ => True)); [apply post_rd; auto|]. intros t2 [] O2 _.
  apply (post_bind P _ _ _ (is_fine P)); [apply keep_new; [exact O2|fine_items]|].
  intros t a O' F'. apply keep_new; [exact O'|]. fine_items.
Qed.
Lemma keep_varbindlist2 P h v : okh P h -> larg P h v -> post P h (is_fine P) (h_varbindlist2 v h).
Proof.
  intros O F. unfold h_varbindlist2. apply (post_bind P h _ _ (fun _ _ => True)); [apply post_rd; auto|]. intros t a O' _.
  destruct (max_bindings <? a); [apply post_lift; [exact O'|discriminate]|]. apply keep_sequenceof; [exact O'|apply larg_ext; exact F].
Qed.
Lemma keep_pdu1 P h c r e i v : okh P h -> larg P h v -> post P h (is_fine P) (h_pdu1 c r e i v h).
Proof.
  intros O F. unfold h_pdu1. apply (post_bind P h _ _ (is_fine P)); [apply keep_integer; exact O|]. intros t1 a1 O1 F1.
  apply (post_bind P _ _ _ (is_fine P)); [apply keep_integer; exact O1|]. intros t2 a2 O2 F2.
  apply (post_bind P _ _ _ (is_fine P)); [apply keep_integer; exact O2|]. intros t3 a3 O3 F3.
  apply (post_bind P _ _ _ (is_fine P)); [apply keep_sequenceof; [exact O3|repeat apply larg_ext; exact F]|]. intros t4 a4 O4 F4.
  apply (post_bind P _ _ _ (is_fine P)); [apply keep_new; [exact O4|fine_items]|]. intros t5 a5 O5 F5.
  apply keep_new; [exact O5|]. fine_items.
Qed.
Definition defaults_ok (h : heap) : Prop := forall l, (l < 5)%nat -> nth_error h l = Some (PList []).
Lemma default_fine P h l : defaults_ok h -> (l < 5)%nat -> larg P h (IRef l).
Proof. intros D L. right. exists l. split; [reflexivity|]. apply D. exact L. Qed.
Lemma defaults_ext h t : defaults_ok h -> defaults_ok (h ++ t).
Proof. intros D l L. apply nth_ext. apply D. exact L. Qed.
Lemma keep_pdu2 P h c r e i v : okh P h -> defaults_ok h -> larg P h v -> post P h (is_fine P) (h_pdu2 c r e i v h).
Proof.
  intros O D F. unfold h_pdu2. apply (post_bind P h _ _ (is_fine P)); [apply keep_pdu1; [exact O|apply default_fine; [exact D|lia]]|]. intros t0 a0 O0 F0.
  apply (post_bind P _ _ _ (fun _ _ => True)); [apply post_lift; auto|]. intros t00 [] O00 _.
  apply (post_bind P _ _ _ (is_fine P)); [apply keep_integer; exact O00|]. intros t1 a1 O1 F1.
  apply (post_bind P _ _ _ (is_fine P)); [apply keep_integer; exact O1|]. intros t2 a2 O2 F2.
  apply (post_bind P _ _ _ (is_fine P)); [apply keep_integer; exact O2|]. intros t3 a3 O3 F3.
  apply (post_bind P _ _ _ (is_fine P)); [apply keep_varbindlist2; [exact O3|repeat apply larg_ext; exact F]|]. intros t4 a4 O4 F4.
  apply (post_bind P _ _ _ (is_fine P)); [apply keep_new; [exact O4|fine_items]|]. intros t5 a5 O5 F5.
  apply keep_new; [exact O5|]. fine_items.
Qed.
Lemma keep_pdu P h c r e i v : okh P h -> defaults_ok h -> larg P h v -> post P h (is_fine P) (h_pdu c r e i v h).
Proof. intros O D F. unfold h_pdu. destruct (issubclass c CPDU_v2); [apply keep_pdu2|apply keep_pdu1]; assumption. Qed.
Lemma keep_bulk P h c r e i v : okh P h -> larg P h v -> post P h (is_fine P) (h_bulk c r e i v h).
Proof.
  intros O F. unfold h_bulk. apply (post_bind P _ _ _ (fun _ _ => True)); [apply post_lift; auto|]. intros t0 [] O0 _.
  apply (post_bind P _ _ _ (fun _ _ => True)); [apply post_lift; auto|]. intros t00 [] O00 _.
  apply (post_bind P _ _ _ (is_fine P)); [apply keep_integer; exact O00|]. intros t1 a1 O1 F1.
  apply (post_bind P _ _ _ (is_fine P)); [apply keep_integer; exact O1|]. intros t2 a2 O2 F2.
  apply (post_bind P _ _ _ (is_fine P)); [apply keep_integer; exact O2|]. intros t3 a3 O3 F3.
  apply (post_bind P _ _ _ (is_fine P)); [apply keep_varbindlist2; [exact O3|repeat apply larg_ext; exact F]|]. intros t4 a4 O4 F4.
  apply (post_bind P _ _ _ (is_fine P)); [apply keep_new; [exact O4|fine_items]|]. intros t5 a5 O5 F5.
  apply keep_new; [exact O5|]. fine_items.
Qed.
Lemma keep_trappdu P h e a g s t v : okh P h -> Forall (fine P h) [e; a; g; s; t; v] -> post P h (is_fine P) (h_trappdu e a g s t v h).
Proof.
  intros O F. rewrite Forall_forall in F. unfold h_trappdu. apply (post_bind P _ _ _ (is_fine P)); [apply keep_new; [exact O|exact F]|]. intros t' a' O' F'.
  apply keep_new; [exact O'|]. cbn [cell_items map snd]. intros i J. destruct J as [<-|[<-|[<-|[<-|[<-|[<-|[<-|[]]]]]]]]; try exact F'; apply fine_ext; apply F; cbn; tauto.
Qed.
Lemma keep_message P h c n com d : okh P h -> fine P h com -> fine P h d -> post P h (is_fine P) (h_message c n com d h).
Proof.
  intros O Fc Fd. unfold h_message. apply (post_bind P _ _ _ (is_fine P)); [apply keep_new; [exact O|fine_items]|]. intros t1 a1 O1 F1.
  apply (post_bind P _ _ _ (is_fine P)); [apply keep_integer; exact O1|]. intros t2 a2 O2 F2.
  apply (post_bind P _ _ _ (is_fine P)); [apply keep_octetstring; [exact O2|sfine]|]. intros t3 a3 O3 F3.
  apply keep_new; [exact O3|]. fine_items.
Qed.
Lemma keep_null_binding P h c o : okh P h -> fine P h o -> post P h (is_fine P) (h_null_binding c o h).
Proof.
  intros O F. unfold h_null_binding. apply (post_bind P _ _ _ (is_fine P)); [apply keep_objectid; assumption|]. intros t1 a1 O1 F1.
  apply (post_bind P _ _ _ (is_fine P)); [apply keep_null; exact O1|]. intros t2 a2 O2 F2. apply keep_varbind; [exact O2|apply fine_ext; exact F1|exact F2].
Qed.
Lemma keep_list_of P h two l : okh P h -> Forall (fine P h) l -> post P h (is_fine P) (h_list_of two l h).
Proof.
  intros O F. unfold h_list_of. apply (post_bind P _ _ _ (is_fine P)); [apply keep_new; [exact O|apply Forall_forall; exact F]|]. intros t1 a1 O1 F1.
  destruct two; [apply keep_varbindlist2|apply keep_sequenceof]; [assumption|left; assumption|assumption|left; assumption].
Qed.
Lemma keep_mapM P {A} (f : A -> H item) (G : heap -> A -> Prop) : (forall h t a, G h a -> G (h ++ t) a) -> (forall h a, okh P h -> G h a -> post P h (is_fine P) (f a h)) ->
  forall l h, okh P h -> Forall (G h) l -> post P h (fun h' a => Forall (fine P h') a) (hmapM f l h).
Proof.
  intros Mono F l. induction l as [|x l IH]; intros h O FA; cbn [hmapM]; [apply post_ret; [exact O|constructor]|].
  inversion FA; subst. apply (post_bind P _ _ _ (is_fine P)); [apply F; assumption|]. intros t a O' F'.
  apply (post_bind P _ _ _ (fun h' b => Forall (fine P h') b /\ fine P h' a)).
  - destruct (IH (h ++ t) O') as (t' & E & O'' & K); [eapply Forall_impl; [|eassumption]; intros; apply Mono; assumption|].
    exists t'. split; [exact E|]. split; [exact O''|]. intros b Eb. split; [apply K; exact Eb|]. rewrite E. apply fine_ext. exact F'.
  - intros t' b O'' [Fb Fa]. apply post_ret; [exact O''|]. constructor; assumption.
Qed.
Lemma keep_construct P h c v : okh P h -> defaults_ok h -> fine P h v -> post P h (is_fine P) (h_construct c v h).
Proof.
  intros O D F. pose proof (default_fine P h 4 D ltac:(lia)) as D4. pose proof (default_fine P h 1 D ltac:(lia)) as D1. pose proof (default_fine P h 3 D ltac:(lia)) as D3.
  assert (N : fine P h INone) by (apply fine_plain; reflexivity).
  destruct c; cbn [h_construct]; first
    [ apply keep_integer; exact O | apply keep_octetstring; assumption | apply keep_objectid; assumption | apply keep_sequence; assumption | apply keep_ipaddress; assumption
    | apply keep_pdu; [exact O|exact D|first [exact D1|exact D3]] | apply keep_bulk; assumption | apply keep_trappdu; [exact O|apply Forall_forall; intros i J; repeat (destruct J as [<-|J]; [assumption|]); destruct J] | apply post_lift; [exact O|discriminate] ].
Qed.
Lemma keep_typed P h n v : okh P h -> defaults_ok h -> fine P h v -> post P h (is_fine P) (h_typed n v h).
Proof. intros O D F. unfold h_typed. destruct (reg_get reg1905 n); [apply keep_construct; assumption|apply post_lift; [exact O|discriminate]]. Qed.

(** Decoded objects *)
Lemma keep_make P : forall v h, okh P h -> post P h (is_fine P) (h_make v h).
Proof.
  fix IH 1. intros v h O.
  assert (All : forall l h, okh P h -> post P h (fun h' a => Forall (fine P h') a)
     ((fix go (l : list val) : H (list item) := match l with [] => hret [] | x :: r => y <== h_make x ;; ys <== go r ;; hret (y :: ys) end) l h)).
  { clear v h O. fix IHl 1. intros [|x l] h O; [apply post_ret; [exact O|constructor]|].
    apply (post_bind P _ _ _ (is_fine P)); [apply IH; exact O|]. intros t a O' F'.
    apply (post_bind P _ _ _ (fun h' b => Forall (fine P h') b /\ fine P h' a)).
    - destruct (IHl l (h ++ t) O') as (t' & E & O'' & K).
      exists t'. split; [exact E|]. split; [exact O''|]. intros b Eb. split; [apply K; exact Eb|]. rewrite E. apply fine_ext. exact F'.
    - intros t' b O'' [Fb Fa]. apply post_ret; [exact O''|]. constructor; assumption. }
  destruct v; cbn [h_make]; try (apply post_ret; [exact O|apply fine_plain; reflexivity]); try (apply keep_new; [exact O|]; fine_items; fail).
  - apply (post_bind P _ _ _ (fun h' a => Forall (fine P h') a)); [apply All; exact O|]. intros t a O' F'. apply keep_new; [exact O'|apply Forall_forall; exact F'].
  - apply (post_bind P _ _ _ (is_fine P)); [apply IH; exact O|]. intros t a O' F'. apply keep_new; [exact O'|]. fine_items.
  - destruct l as [l|]; [|apply keep_new; [exact O|]; fine_items]. apply keep_oid_of; [exact O|apply fine_ints].
  - apply (post_bind P _ _ _ (fun h' a => Forall (fine P h') a)); [apply All; exact O|]. intros t a O' F'.
    apply (post_bind P _ _ _ (is_fine P)); [apply keep_new; [exact O'|apply Forall_forall; exact F']|]. intros t' a' O'' F''.
    apply keep_new; [exact O''|]. cbn [cell_items]. intros i J. rewrite map_app in J. apply in_app_or in J as [J|[<-|[]]]; [|exact F''].
    apply fine_ext. rewrite Forall_forall in F'. apply F'. clear - J. revert a J. induction (attr_names c) as [|n ns IHn]; intros [|x a] J; cbn in *; try tauto. destruct J as [->|J]; [left; reflexivity|right; auto].
Qed.
Lemma keep_make_message P h m : okh P h -> post P h (is_fine P) (h_make_message m h).
Proof.
  intros O. unfold h_make_message. apply (post_bind P _ _ _ (is_fine P)); [apply keep_new; [exact O|fine_items]|]. intros t1 a1 O1 F1.
  apply (post_bind P _ _ _ (is_fine P)); [apply keep_make; exact O1|]. intros t2 a2 O2 F2.
  apply (post_bind P _ _ _ (is_fine P)); [apply keep_make; exact O2|]. intros t3 a3 O3 F3.
  apply (post_bind P _ _ _ (is_fine P)); [apply keep_make; exact O3|]. intros t4 a4 O4 F4.
  apply keep_new; [exact O4|]. fine_items.
Qed.
