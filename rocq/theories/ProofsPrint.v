(** * Printing *)
From Coq Require Import Ascii String ZArith List Bool Lia Arith.
From Verif Require Import PyBase Classes Values Codec Text SpecNumber SpecText ProofsNumber.
Import ListNotations.
Open Scope Z_scope.

(** ** The table *)
Lemma tbl_get_set t k v x : tbl_get (tbl_set t k v) x = if k =? x then Some v else tbl_get t x.
Proof.
  induction t as [|[y w] t IH]; cbn; [destruct (k =? x); reflexivity|].
  destruct (Z.eqb_spec y k) as [->|N]; cbn.
  - destruct (k =? x); reflexivity.
  - destruct (Z.eqb_spec y x) as [->|N']; [destruct (Z.eqb_spec k x); congruence|exact IH].
Qed.
Lemma extend_get t x : tbl_get (extend t) x = match tbl_get errString_v2 x with Some s => Some s | None => tbl_get t x end.
Proof.
  unfold extend. set (l := errString_v2). assert (H : NoDup (map fst l)).
  { unfold l. cbn. repeat (constructor; [cbn; intuition discriminate|]). constructor. }
  clearbody l. revert t. induction l as [|[k v] l IH]; intros t; [reflexivity|]. cbn [map fst] in H. inversion H as [|? ? Hn H']; subst.
  cbn [fold_left fst snd tbl_get]. rewrite (IH H'). destruct (Z.eqb_spec k x) as [->|N].
  - destruct (tbl_get l x) as [s|] eqn:E.
    + exfalso. apply Hn. clear -E. induction l as [|[y w] l IH]; [discriminate|]. cbn in *. destruct (Z.eqb_spec y x) as [->|]; auto.
    + rewrite tbl_get_set, Z.eqb_refl. reflexivity.
  - destruct (tbl_get l x); [reflexivity|]. rewrite tbl_get_set. destruct (Z.eqb_spec k x); congruence.
Qed.
Lemma errString0_dom x : (exists s, tbl_get errString0 x = Some s) <-> 0 <= x <= 5.
Proof.
  split.
  - intros [s H]. unfold errString0 in H; cbn [tbl_get] in H. repeat match goal with H : context [if ?a =? ?b then _ else _] |- _ => destruct (Z.eqb_spec a b); [lia|] end. discriminate.
  - intros H. assert (X : x = 0 \/ x = 1 \/ x = 2 \/ x = 3 \/ x = 4 \/ x = 5) by lia.
    repeat destruct X as [->|X]; try subst x; eexists; reflexivity.
Qed.
Lemma errString_v2_dom x : (exists s, tbl_get errString_v2 x = Some s) <-> 6 <= x <= 18.
Proof.
  split.
  - intros [s H]. unfold errString_v2 in H; cbn [tbl_get] in H. repeat match goal with H : context [if ?a =? ?b then _ else _] |- _ => destruct (Z.eqb_spec a b); [lia|] end. discriminate.
  - intros H. assert (X : x = 6 \/ x = 7 \/ x = 8 \/ x = 9 \/ x = 10 \/ x = 11 \/ x = 12 \/ x = 13 \/ x = 14 \/ x = 15 \/ x = 16 \/ x = 17 \/ x = 18) by lia.
    repeat destruct X as [->|X]; try subst x; eexists; reflexivity.
Qed.
Lemma genericTraps_dom x : (exists s, tbl_get genericTraps x = Some s) <-> 0 <= x <= 6.
Proof.
  split.
  - intros [s H]. unfold genericTraps in H; cbn [tbl_get] in H. repeat match goal with H : context [if ?a =? ?b then _ else _] |- _ => destruct (Z.eqb_spec a b); [lia|] end. discriminate.
  - intros H. assert (X : x = 0 \/ x = 1 \/ x = 2 \/ x = 3 \/ x = 4 \/ x = 5 \/ x = 6) by lia.
    repeat destruct X as [->|X]; try subst x; eexists; reflexivity.
Qed.
Lemma errs_after_get h x : exists b, (b = true <-> v2_seen h) /\
  tbl_get (errs_after h) x = if (b : bool) then tbl_get (extend errString0) x else tbl_get errString0 x.
Proof.
  unfold errs_after. induction h as [|o h IH] using rev_ind.
  - exists false. split; [|reflexivity]. split; [discriminate|]. intros (o & [] & _).
  - destruct IH as (b & Hb & IH). rewrite fold_left_app. cbn [fold_left]. destruct (op_extends o) eqn:E.
    + exists true. split; [split; [intros _; exists o; split; [apply in_elt|exact E]|auto]|].
      rewrite extend_get, IH. destruct b; rewrite ?extend_get; destruct (tbl_get errString_v2 x); reflexivity.
    + exists b. split; [|exact IH]. rewrite Hb. unfold v2_seen. split.
      * intros (o' & I & X). exists o'. split; [apply in_or_app; auto|exact X].
      * intros (o' & I & X). exists o'. split; [|exact X]. apply in_app_or in I as [I|[<-|[]]]; [exact I|congruence].
Qed.
Lemma errs_after_dom h x : (exists s, tbl_get (errs_after h) x = Some s) <-> has_text (v2_seen h) x.
Proof.
  destruct (errs_after_get h x) as (b & Hb & E). rewrite E. unfold has_text. destruct b.
  - rewrite extend_get. pose proof (errString0_dom x) as A. pose proof (errString_v2_dom x) as B. destruct (tbl_get errString_v2 x) as [s|].
    + split; [intros _; right; split; [apply Hb; reflexivity|apply B; eauto]|eauto].
    + rewrite A. split; [auto|]. intros [H|[_ H]]; [exact H|]. apply B in H as [s H]. discriminate.
  - rewrite errString0_dom. split; [auto|]. intros [H|[H _]]; [exact H|]. apply Hb in H. discriminate.
Qed.

(** ** Values without lists *)
(** Every object inside can be printed, but for its code. *)
Fixpoint plain (v : val) : Prop :=
  match v with
  | VPyList _ => False
  | VOct _ (VPyStr _) => True
  | VOct _ _ => False
  | VSeq _ l => (fix go (l : list val) : Prop := match l with [] => True | x :: r => plain x /\ go r end) l
  | _ => True
  end.
Lemma plain_seq c l : plain (VSeq c l) <-> Forall plain l.
Proof.
  cbn [plain]. induction l as [|x l IH]; [split; auto; constructor|]. rewrite Forall_cons_iff, IH. tauto.
Qed.
Section val_ind.
  Variable P : val -> Prop.
  Hypothesis H0 : forall v, match v with VSeq _ _ => False | _ => True end -> P v.
  Hypothesis H1 : forall c l, Forall P l -> P (VSeq c l).
  Fixpoint seq_ind (v : val) : P v :=
    match v as v return P v with
    | VSeq c l => H1 c l ((fix go (l : list val) : Forall P l := match l with [] => Forall_nil _ | x :: r => Forall_cons _ (seq_ind x) (go r) end) l)
    | VNone => H0 VNone I | VPyInt z => H0 (VPyInt z) I | VPyStr s => H0 (VPyStr s) I | VPyList l => H0 (VPyList l) I
    | VInt c z => H0 (VInt c z) I | VOct c w => H0 (VOct c w) I | VOid l => H0 (VOid l) I | VNull c => H0 (VNull c) I
    end.
End val_ind.
Definition str_list (errs : table) : list val -> res (list str) :=
  fix go (l : list val) : res (list str) :=
    match l with
    | [] => Ok []
    | x :: r => a <- py_str errs x ;; b <- go r ;; Ok (a :: b)
    end.
Lemma py_str_seq errs c l : py_str errs (VSeq c l) = (parts <- str_list errs l ;; Ok ([91] ++ commas parts ++ [93])).
Proof. reflexivity. Qed.

Definition known (K : Z -> Prop) (v : val) : Prop := forall c z, inside (VInt c z) v ->
  (c = CErrorStatus \/ c = CErrorStatus_v2 -> K z) /\ (c = CGenericTrap -> 0 <= z <= 6).
Lemma known_seq K c l : known K (VSeq c l) <-> Forall (known K) l.
Proof.
  split.
  - intros H. apply Forall_forall. intros x I c' z X. apply H. eapply inside_seq; eassumption.
  - intros H c' z X. inversion X as [|x y c0 l0 I X']; subst. rewrite Forall_forall in H. apply (H _ I). exact X'.
Qed.
Lemma known_leaf K v : (forall c z, v <> VInt c z) -> (forall c l, v <> VSeq c l) -> known K v.
Proof. intros A B c z X. inversion X; subst; exfalso; [eapply A|eapply B]; reflexivity. Qed.
Lemma known_int K c z : known K (VInt c z) <-> (c = CErrorStatus \/ c = CErrorStatus_v2 -> K z) /\ (c = CGenericTrap -> 0 <= z <= 6).
Proof. split; [intros H; apply H; constructor|]. intros H c' z' X. inversion X; subst. exact H. Qed.

Lemma print_outcome errs (K : Z -> Prop) : (forall x, (exists s, tbl_get errs x = Some s) <-> K x) ->
  forall v, plain v -> (known K v /\ exists s, py_str errs v = Ok s) \/ (~ known K v /\ py_str errs v = Err KeyError).
Proof.
  intros HK. refine (seq_ind _ _ _).
  - intros v N P. destruct v as [|z|s|l|c z|c w|l|c|c l]; try contradiction; try (left; split; [apply known_leaf; discriminate|cbn; solve [eauto]]).
    + cbn [py_str]. unfold int_str. rewrite known_int. pose proof (HK z) as E. pose proof (genericTraps_dom z) as G.
      destruct c; try (left; split; [intuition discriminate|solve [eauto]]).
      * destruct (tbl_get errs z) as [s|]; [left|right]; (split; [|eauto]).
        -- split; [|discriminate]. intros _. apply E. eauto.
        -- intros [H _]. specialize (H (or_introl eq_refl)). apply E in H as [s H]. discriminate.
      * destruct (tbl_get genericTraps z) as [s|]; [left|right]; (split; [|eauto]).
        -- split; [intros [X|X]; discriminate|]. intros _. apply G. eauto.
        -- intros [_ H]. specialize (H eq_refl). apply G in H as [s H]. discriminate.
      * destruct (tbl_get errs z) as [s|]; [left|right]; (split; [|eauto]).
        -- split; [|discriminate]. intros _. apply E. eauto.
        -- intros [H _]. specialize (H (or_intror eq_refl)). apply E in H as [s H]. discriminate.
    + destruct w; cbn in P; try contradiction. left. split; [apply known_leaf; discriminate|]. cbn [py_str]. destruct (issubclass c CIPAddress); eauto.
  - intros c l IH P. rewrite plain_seq in P. rewrite known_seq, py_str_seq.
    assert (X : (Forall (known K) l /\ exists ss, str_list errs l = Ok ss) \/ (~ Forall (known K) l /\ str_list errs l = Err KeyError)).
    { induction l as [|x l IHl]; [left; split; [constructor|cbn; eauto]|].
      inversion IH as [|? ? Hx Hl]; subst. inversion P as [|? ? Px Pl]; subst. cbn [str_list]. fold (str_list errs).
      destruct (Hx Px) as [[A [s ->]]|[A ->]].
      - cbn [bind]. destruct (IHl Hl Pl) as [[B [ss ->]]|[B ->]]; cbn [bind].
        + left. split; [constructor; assumption|eauto].
        + right. split; [|reflexivity]. intros F. inversion F; auto.
      - right. split; [|reflexivity]. intros F. inversion F; auto. }
    destruct X as [[A [ss ->]]|[A ->]]; cbn [bind]; [left|right]; eauto.
Qed.

(** ** Decoded values are plain *)
Lemma py_index_in {A} (l : list A) i x : py_index l i = Ok x -> In x l.
Proof.
  unfold py_index. intros H. repeat match goal with H : context [if ?b then _ else _] |- _ => destruct b; try discriminate end;
  destruct (nth_error l _) eqn:N; try discriminate; injection H as <-; eapply nth_error_In; eassumption.
Qed.
Lemma plain_getitem v i x : plain v -> py_getitem v i = Ok x -> plain x.
Proof.
  intros P H. destruct v as [|z|s|l|c z|c w|[l|]|c|c l]; try discriminate; cbn [py_getitem] in H.
  - destruct (py_index s i); [|discriminate]. injection H as <-. exact I.
  - contradiction.
  - destruct (py_index l i); [|discriminate]. injection H as <-. exact I.
  - apply plain_seq in P. rewrite Forall_forall in P. apply P. eapply py_index_in; eassumption.
Qed.
Lemma plain_iter v l : plain v -> py_iter v = Ok l -> Forall plain l.
Proof.
  intros P H. destruct v as [|z|s|l'|c z|c w|[l'|]|c|c l']; try discriminate; cbn [py_iter] in H; injection H as <-.
  - apply Forall_map. apply Forall_forall. intros; exact I.
  - contradiction.
  - apply Forall_map. apply Forall_forall. intros; exact I.
  - apply plain_seq in P. exact P.
Qed.
Lemma plain_mapM {A} (f : A -> res val) l : (forall x v, In x l -> f x = Ok v -> plain v) -> forall vs, mapM f l = Ok vs -> Forall plain vs.
Proof.
  induction l as [|x l IH]; intros H vs E; cbn in E; [injection E as <-; constructor|].
  destruct (f x) eqn:F; cbn [bind] in E; [|discriminate]. destruct (mapM f l) eqn:M; cbn [bind] in E; [|discriminate]. injection E as <-.
  constructor; [eapply H; [left; reflexivity|exact F]|]. apply IH; [|reflexivity]. intros y v I. apply H. right. exact I.
Qed.
Lemma plain_varbind c item v : plain item -> build_varbind c item = Ok v -> plain v.
Proof.
  intros P H. unfold build_varbind in H. destruct (py_getitem item 0) as [a|] eqn:A; [|discriminate]. cbn [bind] in H.
  destruct (py_getitem item 1) as [b|] eqn:B; [|discriminate]. cbn [bind] in H. unfold varbind_init in H.
  destruct (_ && _) in H; [discriminate|]. destruct (_ && _) in H; [discriminate|]. injection H as <-.
  cbn. eauto using plain_getitem.
Qed.
Lemma plain_integer c v w : integer_init c v = Ok w -> plain w.
Proof. destruct v; cbn; try discriminate. destruct (_ && _); [|discriminate]. intros [= <-]. exact I. Qed.
Lemma plain_appends t : forall items acc l, Forall plain acc -> Forall plain items -> sequenceof_appends t acc items = Ok l -> Forall plain l.
Proof.
  induction items as [|x items IH]; intros acc l A P H; cbn in H; [congruence|].
  unfold sequenceof_append in H. destruct (negb _); [discriminate|]. cbn [bind] in H. inversion P; subst.
  eapply IH; [|eassumption|exact H]. apply Forall_app. auto.
Qed.
Lemma plain_sequenceof c t v w : Forall plain (match py_iter v with Ok l => l | _ => [] end) -> sequenceof_init c t v = Ok w -> plain w.
Proof.
  intros P H. unfold sequenceof_init in H. destruct (truthy v); [|injection H as <-; exact I].
  destruct (py_iter v) as [items|]; [|discriminate]. cbn [bind] in H. destruct (sequenceof_appends t [] items) as [l|] eqn:E; [|discriminate].
  injection H as <-. apply plain_seq. eapply plain_appends; [constructor|exact P|exact E].
Qed.
Ltac peel H := match type of H with (bind ?r _ = _) => let E := fresh "E" in destruct r eqn:E; cbn [bind] in H; [|discriminate] end.
Lemma plain_pdu_objects c objs v : Forall plain objs -> pdu_of_objects c objs = Ok v -> plain v.
Proof.
  intros P H. unfold pdu_of_objects in H. destruct objs as [|o0 [|o1 [|o2 [|o3 [|? ?]]]]]; try discriminate.
  repeat peel H. apply Forall_forall with (x := o3) in P; [|cbn; auto].
  assert (V : Forall plain a0).
  { eapply plain_mapM; [|exact E0]. intros x w Hx. apply plain_varbind. pose proof (plain_iter _ _ P E) as Q. rewrite Forall_forall in Q. auto. }
  unfold pdu_init in H. destruct (issubclass c CPDU_v2); unfold pdu_v2_init, pdu_v1_init, varbindlist_v2_init, varbindlist_init in H; repeat peel H.
  - destruct a4; [discriminate|]. repeat peel H. injection H as <-. cbn [py_len bind] in E8. destruct (max_bindings <? _); [discriminate|].
    apply plain_sequenceof in E8; [|exact V]. apply plain_integer in E5, E6, E7. cbn. auto.
  - injection H as <-. apply plain_sequenceof in E7; [|exact V]. apply plain_integer in E4, E5, E6. cbn. auto.
Qed.
Lemma plain_bulkpdu_objects c objs v : Forall plain objs -> bulkpdu_of_objects c objs = Ok v -> plain v.
Proof.
  intros P H. unfold bulkpdu_of_objects in H. destruct objs as [|o0 [|o1 [|o2 [|o3 [|? ?]]]]]; try discriminate.
  repeat peel H. apply Forall_forall with (x := o3) in P; [|cbn; auto].
  assert (V : Forall plain a0).
  { eapply plain_mapM; [|exact E0]. intros x w Hx. apply plain_varbind. pose proof (plain_iter _ _ P E) as Q. rewrite Forall_forall in Q. auto. }
  unfold bulkpdu_init, varbindlist_v2_init in H. repeat peel H. destruct a4; [discriminate|]. repeat peel H. destruct a4; [discriminate|]. repeat peel H.
  injection H as <-. cbn [py_len bind] in E9. destruct (max_bindings <? _); [discriminate|].
  apply plain_sequenceof in E9; [|exact V]. apply plain_integer in E6, E7, E8. cbn. auto.
Qed.
Lemma plain_trappdu_objects objs v : Forall plain objs -> trappdu_of_objects objs = Ok v -> plain v.
Proof.
  intros P H. unfold trappdu_of_objects in H. destruct objs as [|o0 [|o1 [|o2 [|o3 [|o4 [|o5 [|? ?]]]]]]]; try discriminate.
  repeat peel H. rewrite Forall_forall in P.
  assert (V : Forall plain a0).
  { eapply plain_mapM; [|exact E0]. intros x w Hx. apply plain_varbind. pose proof (plain_iter o5 _ (P _ ltac:(cbn; auto 9)) E) as Q. rewrite Forall_forall in Q. auto. }
  injection H as <-. apply plain_integer in E2. unfold trappdu_init. apply plain_seq. apply plain_seq with (c := CVarBindList) in V. repeat constructor; auto; apply P; cbn; auto 9.
Qed.
Lemma plain_decode reg : forall depth s l, decode reg depth s = Ok l -> Forall plain l.
Proof.
  induction depth as [|d IH]; intros s l H; [discriminate|]. cbn [decode] in H. revert l H. generalize (length s) as fuel. intros fuel.
  revert s. induction fuel as [|f IHf]; intros [|b s] l H; cbn [decode_loop] in H; try discriminate; try (injection H as <-; constructor).
  destruct (decode_one reg (decode reg d) (b :: s)) as [[o rest]|] eqn:D; [|discriminate]. cbn [bind] in H.
  destruct (decode_loop reg (decode reg d) f rest) as [os|] eqn:L; [|discriminate]. injection H as <-.
  constructor; [|eapply IHf; exact L]. unfold decode_one in D. destruct (decodeTag (b :: s)) as [[tag s1]|]; [|discriminate]. cbn [bind] in D.
  destruct (decodeLength s1) as [[len s2]|]; [|discriminate]. cbn [bind] in D. destruct (reg_get reg tag) as [c|]; [|discriminate].
  destruct (decodeContents (decode reg d) c (ztake len s2)) as [o'|] eqn:C; [|discriminate]. injection D as -> _.
  unfold decodeContents in C. destruct (decode_method c) as [[| | | | | | | | |]|]; try discriminate; try peel C; try (injection C as <-; exact I).
  - injection C as <-. apply plain_seq. eauto.
  - eapply plain_pdu_objects; [eapply IH; eassumption|exact C].
  - eapply plain_trappdu_objects; [eapply IH; eassumption|exact C].
  - eapply plain_bulkpdu_objects; [eapply IH; eassumption|exact C].
Qed.
Lemma plain_message reg depth c d m : message_decode reg depth c d = Ok m -> plain (m_version m) /\ plain (m_community m) /\ plain (m_data m).
Proof.
  unfold message_decode. destruct d as [s|s]; [|discriminate]. cbn [decode_data]. intros H. peel H. apply plain_decode in E.
  destruct a as [|o [|? ?]]; try discriminate. peel H. destruct (negb _); [discriminate|]. repeat peel H. injection H as <-. inversion E; subst. cbn [m_version m_community m_data].
  split; [|split]; (eapply plain_getitem; [|eassumption]); assumption.
Qed.

(** ** Decoding and the table *)
Lemma issubclass_pdu2 x : isinstance x CPDU_v2 = true -> exists c, class_of x = Some c /\ issubclass c CPDU_v2 = true.
Proof. unfold isinstance. destruct (class_of x); [eauto|discriminate]. Qed.
(** Leaves made by decoding, other than of class [c], are no v2 PDUs. *)
Lemma inside_trans x y z : inside x y -> inside y z -> inside x z.
Proof. intros A B. revert A. induction B as [v|y' w c l I B IH]; intros A; [exact A|]. eapply inside_seq; eauto. Qed.
Lemma inside_getitem v i x : py_getitem v i = Ok x -> plain v -> inside x v \/ (exists z, x = VPyInt z) \/ exists s, x = VPyStr s.
Proof.
  destruct v as [|z|s|l|c z|c w|[l|]|c|c l]; cbn [py_getitem]; try discriminate; intros H P.
  - destruct (py_index s i); [|discriminate]. injection H as <-. eauto.
  - contradiction.
  - destruct (py_index l i); [|discriminate]. injection H as <-. eauto.
  - left. apply py_index_in in H. eapply inside_seq; [exact H|constructor].
Qed.
Lemma inside_iter v l x : py_iter v = Ok l -> plain v -> In x l -> inside x v \/ (exists z, x = VPyInt z) \/ exists s, x = VPyStr s.
Proof.
  destruct v as [|z|s|l'|c z|c w|[l'|]|c|c l']; cbn [py_iter]; try discriminate; intros H P I; injection H as <-.
  - apply in_map_iff in I as (? & <- & _). eauto.
  - contradiction.
  - apply in_map_iff in I as (? & <- & _). eauto.
  - left. eapply inside_seq; [exact I|constructor].
Qed.
Definition pdu2 (x : val) : Prop := isinstance x CPDU_v2 = true.
Lemma pdu2_int z : ~ pdu2 (VPyInt z). Proof. discriminate. Qed.
Lemma mapM_in {A B} (f : A -> res B) l : forall vs y, mapM f l = Ok vs -> In y vs -> exists x, In x l /\ f x = Ok y.
Proof.
  induction l as [|x l IH]; intros vs y E I; cbn in E; [injection E as <-; contradiction|].
  destruct (f x) eqn:F; cbn [bind] in E; [|discriminate]. destruct (mapM f l) eqn:M; cbn [bind] in E; [|discriminate]. injection E as <-.
  destruct I as [<-|I]; [exists x; cbn; auto|]. destruct (IH _ _ eq_refl I) as (x' & I' & F'). exists x'. cbn; auto.
Qed.
Lemma pdu2_varbind c item v x : build_varbind c item = Ok v -> issubclass c CPDU_v2 = false -> plain item -> inside x v -> pdu2 x -> inside x item.
Proof.
  intros H NC P I X. unfold build_varbind in H. peel H. peel H. unfold varbind_init in H. destruct (_ && _) in H; [discriminate|]. destruct (_ && _) in H; [discriminate|]. injection H as <-.
  inversion I as [|? y ? ? Iy Ix]; subst; [unfold pdu2, isinstance in X; cbn [class_of] in X; congruence|].
  destruct Iy as [<-|[<-|[]]].
  - apply inside_getitem in E; [|exact P]. destruct E as [E|[(z & ->)|(s & ->)]]; [eapply inside_trans; eassumption| |]; inversion Ix; subst; discriminate X.
  - apply inside_getitem in E0; [|exact P]. destruct E0 as [E0|[(z & ->)|(s & ->)]]; [eapply inside_trans; eassumption| |]; inversion Ix; subst; discriminate X.
Qed.
Lemma pdu2_varbinds c vb o items vbs x : py_iter o = Ok items -> mapM (build_varbind vb) items = Ok vbs -> issubclass vb CPDU_v2 = false -> issubclass c CPDU_v2 = false ->
  plain o -> inside x (VSeq c vbs) -> pdu2 x -> inside x o.
Proof.
  intros H M NV NC P I X. inversion I as [|? y ? ? Iy Ix]; subst; [unfold pdu2, isinstance in X; cbn [class_of] in X; congruence|].
  destruct (mapM_in _ _ _ _ M Iy) as (item & Ii & B). pose proof (plain_iter _ _ P H) as PI. rewrite Forall_forall in PI.
  pose proof (pdu2_varbind _ _ _ _ B NV (PI _ Ii) Ix X) as Y. destruct (inside_iter _ _ _ H P Ii) as [Z|[(z & ->)|(s & ->)]]; [eapply inside_trans; eassumption| |];
  inversion Y; subst; discriminate X.
Qed.
Lemma sequenceof_items c t v w : sequenceof_init c t v = Ok w -> exists l, w = VSeq c l /\ (l = [] \/ py_iter v = Ok l).
Proof.
  unfold sequenceof_init. destruct (truthy v); [|intros [= <-]; eauto]. intros H. peel H. peel H. injection H as <-. eexists; split; [reflexivity|]. right. f_equal.
  assert (X : forall items acc l, sequenceof_appends t acc items = Ok l -> l = acc ++ items).
  { induction items as [|x items IH]; intros acc l A; cbn in A; [rewrite app_nil_r; congruence|]. unfold sequenceof_append in A. destruct (negb _); [discriminate|].
    cbn [bind] in A. apply IH in A. rewrite <- app_assoc in A. exact A. }
  apply X in E0. cbn in E0. congruence.
Qed.
Lemma integer_leaf k v w x : integer_init k v = Ok w -> inside x w -> issubclass k CPDU_v2 = false -> ~ pdu2 x.
Proof.
  intros H I N X. destruct v; try discriminate. cbn in H. destruct (_ && _); [|discriminate]. injection H as <-. inversion I; subst.
  unfold pdu2, isinstance in X. cbn [class_of] in X. congruence.
Qed.
Lemma pdu2_contents dec c data v x : (forall l, dec data = Ok l -> Forall plain l) -> decodeContents dec c data = Ok v -> inside x v -> pdu2 x ->
  issubclass c CPDU_v2 = true \/
  (match decode_method c with Some DSequence | Some DPDU | Some DBulkPDU | Some DTrapPDU => True | _ => False end /\ exists l y, dec data = Ok l /\ In y l /\ inside x y).
Proof.
  intros PL H I X. destruct (issubclass c CPDU_v2) eqn:NC; [auto|]. right. unfold decodeContents in H.
  assert (Leaf : forall w, class_of w = Some c -> (forall d l, w <> VSeq d l) -> inside x w -> False).
  { intros w Cw N Iw. inversion Iw; subst; [|eapply N; reflexivity]. unfold pdu2, isinstance in X. rewrite Cw, NC in X. discriminate. }
  assert (Self : forall l, x = VSeq c l -> False).
  { intros l ->. unfold pdu2, isinstance in X. cbn [class_of] in X. congruence. }
  destruct (decode_method c) as [[| | | | | | | | |]|]; try discriminate; try peel H.
  - injection H as <-. exfalso. eapply (Leaf (VInt c a)); [reflexivity|discriminate|exact I].
  - injection H as <-. exfalso. eapply (Leaf (VOct c (VPyStr data))); [reflexivity|discriminate|exact I].
  - injection H as <-. exfalso. inversion I; subst. discriminate X.
  - injection H as <-. exfalso. eapply (Leaf (VNull c)); [reflexivity|discriminate|exact I].
  - injection H as <-. split; [exact Logic.I|]. inversion I as [|? y ? ? Iy Ix]; subst; [exfalso; eapply Self; reflexivity|]. eauto.
  - injection H as <-. exfalso. eapply (Leaf (VOct c (VPyStr data))); [reflexivity|discriminate|exact I].
  - injection H as <-. exfalso. eapply (Leaf (VInt c a)); [reflexivity|discriminate|exact I].
  - split; [exact Logic.I|]. specialize (PL _ eq_refl). rewrite Forall_forall in PL. exists a.
    unfold pdu_of_objects in H. destruct a as [|o0 [|o1 [|o2 [|o3 [|? ?]]]]]; try discriminate. repeat peel H. unfold pdu_init in H. rewrite NC in H.
    unfold pdu_v1_init, varbindlist_init in H. repeat peel H. injection H as <-. exists o3. split; [reflexivity|]. split; [cbn; auto|].
    inversion I as [|? y ? ? Iy Ix]; subst; [exfalso; eapply Self; reflexivity|].
    destruct Iy as [<-|[<-|[<-|[<-|[]]]]]; try (exfalso; match goal with Hi : integer_init _ _ = Ok ?w, Hx : inside x ?w |- _ => exact (integer_leaf _ _ _ _ Hi Hx eq_refl X) end).
    apply sequenceof_items in E8 as (l & -> & [->|L]).
    + inversion Ix as [|? ? ? ? Bot]; subst; [discriminate X|contradiction].
    + injection L as <-. eapply pdu2_varbinds; [exact E0|exact E1|reflexivity| |apply PL; cbn; auto|exact Ix|exact X]. reflexivity.
  - split; [exact Logic.I|]. specialize (PL _ eq_refl). rewrite Forall_forall in PL. exists a.
    unfold trappdu_of_objects in H. destruct a as [|o0 [|o1 [|o2 [|o3 [|o4 [|o5 [|? ?]]]]]]]; try discriminate. repeat peel H. injection H as <-.
    unfold trappdu_init in I. inversion I as [|? y ? ? Iy Ix]; subst; [discriminate X|].
    destruct Iy as [<-|[<-|[<-|[<-|[<-|[<-|[]]]]]]]; try (eexists; split; [reflexivity|]; split; [|exact Ix]; cbn; auto 9; fail).
    + exfalso. eapply integer_leaf; [exact E3|exact Ix|reflexivity|exact X].
    + exists o5. split; [reflexivity|]. split; [cbn; auto 9|]. eapply pdu2_varbinds; [exact E0|exact E1|reflexivity| |apply PL; cbn; auto 9|exact Ix|exact X]. reflexivity.
  - split; [exact Logic.I|]. specialize (PL _ eq_refl). rewrite Forall_forall in PL. exists a.
    unfold bulkpdu_of_objects in H. destruct a as [|o0 [|o1 [|o2 [|o3 [|? ?]]]]]; try discriminate. repeat peel H.
    unfold bulkpdu_init in H. peel H. match type of H with (if ?b then _ else _) = _ => destruct b; [discriminate|] end. peel H. match type of H with (if ?b then _ else _) = _ => destruct b; [discriminate|] end. repeat peel H. injection H as <-. exists o3. split; [reflexivity|]. split; [cbn; auto|].
    inversion I as [|? y ? ? Iy Ix]; subst; [exfalso; eapply Self; reflexivity|].
    destruct Iy as [<-|[<-|[<-|[<-|[]]]]]; try (exfalso; match goal with Hi : integer_init _ _ = Ok ?w, Hx : inside x ?w |- _ => exact (integer_leaf _ _ _ _ Hi Hx eq_refl X) end).
    match goal with Hv : varbindlist_v2_init _ = Ok _ |- _ => rename Hv into EV end. unfold varbindlist_v2_init in EV. cbn [py_len bind] in EV. destruct (max_bindings <? _); [discriminate|]. apply sequenceof_items in EV as (l & -> & [->|L]).
    + inversion Ix as [|? ? ? ? Bot]; subst; [discriminate X|contradiction].
    + injection L as <-. eapply pdu2_varbinds; [exact E0|exact E1|reflexivity| |apply PL; cbn; auto|exact Ix|exact X]. reflexivity.
Qed.
Lemma touch_decode reg : forall depth s l y x, decode reg depth s = Ok l -> In y l -> inside x y -> pdu2 x -> touch reg depth s = true.
Proof.
  induction depth as [|d IH]; intros s l y x H Iy Ix X; [discriminate|]. cbn [decode touch] in *. revert l H Iy. generalize (length s) as fuel. intros fuel.
  revert s. induction fuel as [|f IHf]; intros [|b s] l H Iy; cbn [decode_loop] in H; try discriminate; try (injection H as <-; contradiction).
  cbn [touch_loop]. apply orb_true_iff.
  destruct (decode_one reg (decode reg d) (b :: s)) as [[o rest]|] eqn:D; [|discriminate]. cbn [bind] in H.
  destruct (decode_loop reg (decode reg d) f rest) as [os|] eqn:L; [|discriminate]. injection H as <-.
  destruct Iy as [<-|Iy]; [|right; eapply IHf; eassumption]. left.
  unfold decode_one in D. unfold touch_one. destruct (decodeTag (b :: s)) as [[tag s1]|]; [|discriminate]. cbn [bind] in D.
  destruct (decodeLength s1) as [[len s2]|]; [|discriminate]. cbn [bind] in D. destruct (reg_get reg tag) as [c|]; [|discriminate].
  destruct (decodeContents (decode reg d) c (ztake len s2)) as [o'|] eqn:C; [|discriminate]. injection D as -> _.
  destruct (pdu2_contents _ _ _ _ _ (fun l => plain_decode reg d (ztake len s2) l) C Ix X) as [->|[M (l & y & E & Iy' & Ix')]]; [reflexivity|].
  apply orb_true_iff. right. destruct (decode_method c) as [[| | | | | | | | |]|]; try contradiction; eapply IH; eassumption.
Qed.
Lemma reg_no_pdu2 cfg tag c : cfg <> Upto1905 -> reg_get (reg_of cfg) tag = Some c -> issubclass c CPDU_v2 = false.
Proof.
  intros N H. destruct cfg; try congruence; cbn [reg_of] in H;
  match type of H with reg_get ?r _ = _ => let r' := eval vm_compute in r in change r with r' in H end;
  cbn [reg_get] in H; repeat match goal with H : context [if ?a =? ?b then _ else _] |- _ => destruct (Z.eqb a b); [injection H as <-; reflexivity|] end; discriminate.
Qed.
Lemma touch_none cfg : cfg <> Upto1905 -> forall depth s, touch (reg_of cfg) depth s = false.
Proof.
  intros N. induction depth as [|d IH]; intros s; [reflexivity|]. cbn [touch]. generalize (length s) as fuel. intros fuel. revert s.
  induction fuel as [|f IHf]; intros [|b s]; try reflexivity. cbn [touch_loop]. apply orb_false_iff. split.
  - unfold touch_one. destruct (decodeTag (b :: s)) as [[tag s1]|]; [|reflexivity]. destruct (decodeLength s1) as [[len s2]|]; [|reflexivity].
    destruct (reg_get (reg_of cfg) tag) as [c|] eqn:R; [|reflexivity]. rewrite (reg_no_pdu2 _ _ _ N R). cbn [orb].
    destruct (decode_method c) as [[| | | | | | | | |]|]; auto.
  - destruct (decode_one _ _ _) as [[o rest]|]; [apply IHf|reflexivity].
Qed.

(** ** The exact text *)
Lemma code_texts x : code_text x = tbl_get (extend errString0) x.
Proof.
  rewrite extend_get. destruct (Z_lt_dec x 0) as [L|L]; [|destruct (Z_lt_dec 18 x) as [G|G]].
  - pose proof (errString0_dom x) as A. pose proof (errString_v2_dom x) as B. destruct (tbl_get errString_v2 x); [assert (6 <= x <= 18) by (apply B; eauto); lia|].
    destruct (tbl_get errString0 x); [assert (0 <= x <= 5) by (apply A; eauto); lia|]. destruct x; [lia|lia|reflexivity].
  - pose proof (errString0_dom x) as A. pose proof (errString_v2_dom x) as B. destruct (tbl_get errString_v2 x); [assert (6 <= x <= 18) by (apply B; eauto); lia|].
    destruct (tbl_get errString0 x); [assert (0 <= x <= 5) by (apply A; eauto); lia|]. destruct x as [|q|q]; try lia. repeat (destruct q as [q|q|]; try reflexivity; try lia).
  - assert (H : In x [0;1;2;3;4;5;6;7;8;9;10;11;12;13;14;15;16;17;18]) by (cbn; lia). cbn in H. repeat (destruct H as [<-|H]; [reflexivity|]). destruct H.
Qed.
Lemma trap_names g : tbl_get genericTraps g = trap_name g.
Proof.
  destruct (Z_lt_dec g 0) as [L|L]; [|destruct (Z_lt_dec 6 g) as [G|G]].
  - unfold genericTraps. cbn [tbl_get]. repeat (match goal with |- context [?a =? ?b] => destruct (Z.eqb_spec a b); [lia|] end). destruct g; [lia|lia|reflexivity].
  - unfold genericTraps. cbn [tbl_get]. repeat (match goal with |- context [?a =? ?b] => destruct (Z.eqb_spec a b); [lia|] end).
    destruct g as [|q|q]; try lia. repeat (destruct q as [q|q|]; try reflexivity; try lia).
  - assert (H : In g [0;1;2;3;4;5;6]) by (cbn; lia). cbn in H. repeat (destruct H as [<-|H]; [reflexivity|]). destruct H.
Qed.
(** The table holds the known texts. *)
Definition right_texts (v2 : Prop) (errs : table) : Prop := forall z t, tbl_get errs z = Some t <-> has_text v2 z /\ code_text z = Some t.
Lemma errs_after_right h : right_texts (v2_seen h) (errs_after h).
Proof.
  intros z t. rewrite code_texts. destruct (errs_after_get h z) as (b & Hb & E). pose proof (errs_after_dom h z) as D. split.
  - intros H. split; [apply D; eauto|]. rewrite E in H. destruct b; [exact H|]. rewrite extend_get. destruct (tbl_get errString_v2 z) eqn:V; [|exact H].
    pose proof (proj1 (errString_v2_dom z) (ex_intro _ _ V)). pose proof (proj1 (errString0_dom z) (ex_intro _ _ H)). lia.
  - intros [T H]. apply D in T as (t' & T). rewrite T. rewrite E in T. destruct b; [congruence|].
    rewrite extend_get in H. destruct (tbl_get errString_v2 z) eqn:V; [|congruence].
    pose proof (proj1 (errString_v2_dom z) (ex_intro _ _ V)). pose proof (proj1 (errString0_dom z) (ex_intro _ _ T)). lia.
Qed.
Lemma decimals l : Forall2 decimal l (map py_str_of_int l).
Proof. induction l; constructor; [apply decimal_iff; reflexivity|assumption]. Qed.
Lemma decimals_fun l parts : Forall2 decimal l parts -> parts = map py_str_of_int l.
Proof. induction 1 as [|z s l parts D F IH]; [reflexivity|]. apply decimal_iff in D. subst s. cbn [map]. f_equal. exact IH. Qed.
Lemma commas_separated l : commas l = separated [44; 32] l.
Proof.
  destruct l as [|x l]; [reflexivity|]. cbn [separated]. revert x. induction l as [|y l IH]; intros x; [cbn; rewrite app_nil_r; reflexivity|].
  change (commas (x :: y :: l)) with (x ++ [44; 32] ++ commas (y :: l)). rewrite IH. reflexivity.
Qed.
Lemma str_list_iff errs l : forall parts, str_list errs l = Ok parts <-> Forall2 (fun v s => py_str errs v = Ok s) l parts.
Proof.
  induction l as [|x l IH]; intros parts; cbn [str_list].
  - split; [intros H; injection H as <-; constructor|intros H; inversion H; reflexivity].
  - split.
    + destruct (py_str errs x) as [a|] eqn:E; [|discriminate]. cbn [bind]. fold (str_list errs). destruct (str_list errs l) as [b|] eqn:M; [|discriminate]. cbn [bind]. intros H. injection H as <-. constructor; [exact E|apply IH; reflexivity].
    + intros H. inversion H as [|? y ? ys E F]; subst. apply IH in F. rewrite E. cbn [bind]. fold (str_list errs). rewrite F. reflexivity.
Qed.
Lemma address_class c : issubclass c CIPAddress = true <-> In c [CIPAddress; CNetworkAddress].
Proof. destruct c; cbn; intuition discriminate. Qed.
Lemma prints_iff v2 errs : right_texts v2 errs -> forall v, plain v -> forall s, py_str errs v = Ok s <-> prints v2 v s.
Proof.
  intros RT. refine (seq_ind _ _ _).
  - intros v N P s. destruct v as [|z|s0|l|c z|c w|l|c|c l]; try contradiction; cbn [py_str].
    + split; [intros H; injection H as <-; constructor|intros H; inversion H; reflexivity].
    + split; [intros H; injection H as <-; constructor; apply decimal_iff; reflexivity|intros H; inversion H as [|? ? D| | | | | | | | | |]; subst; apply decimal_iff in D; congruence].
    + split; [intros H; injection H as <-; constructor|intros H; inversion H; reflexivity].
    + unfold int_str. destruct (in_dec cls_eq_dec c [CErrorStatus; CErrorStatus_v2; CGenericTrap]) as [I|I].
      * assert (ST : In c [CErrorStatus; CErrorStatus_v2] -> (match tbl_get errs z with Some s1 => Ok (py_str_of_int z ++ [58; 32] ++ s1) | None => Err KeyError end = Ok s <-> prints v2 (VInt c z) s)).
        { intros I2. split.
          - destruct (tbl_get errs z) as [t|] eqn:T; [|discriminate]. intros H. injection H as <-. apply RT in T as [T1 T2]. apply prints_status; auto. apply decimal_iff; reflexivity.
          - intros H. inversion H as [| | |? ? ? NI|? ? ? t _ D T1 T2|? ? t D T| | | | | |]; subst; [contradiction| |cbn in I2; intuition discriminate].
            apply decimal_iff in D as ->. assert (T : tbl_get errs z = Some t) by (apply RT; auto). rewrite T. reflexivity. }
        destruct I as [<-|[<-|[<-|[]]]]; [apply ST; cbn; auto|apply ST; cbn; auto|]. rewrite trap_names. split.
        -- destruct (trap_name z) as [t|] eqn:T; [|discriminate]. intros H. injection H as <-. apply (prints_trap v2 z (py_str_of_int z) t); [apply decimal_iff; reflexivity|exact T].
        -- intros H. inversion H as [| | |? ? ? NI|? ? ? t I2|? ? t D T| | | | | |]; subst; [elim NI; cbn; auto|cbn in I2; intuition discriminate|]. apply decimal_iff in D as ->. rewrite T. reflexivity.
      * replace (match c with CErrorStatus | CErrorStatus_v2 => match tbl_get errs z with Some s1 => Ok (py_str_of_int z ++ [58; 32] ++ s1) | None => Err KeyError end
          | CGenericTrap => match tbl_get genericTraps z with Some s1 => Ok (text "GenericTrap: " ++ py_str_of_int z ++ [32; 40] ++ s1 ++ [41]) | None => Err KeyError end
          | _ => Ok (py_str_of_int z) end) with (Ok (A := str) (py_str_of_int z)) by (destruct c; try reflexivity; elim I; cbn; auto). split.
        -- intros H. injection H as <-. apply prints_number; [exact I|apply decimal_iff; reflexivity].
        -- intros H. inversion H as [| | |? ? ? NI D|? ? ? t I2|? ? t D T| | | | | |]; subst; [apply decimal_iff in D; congruence|elim I; cbn in I2 |- *; intuition auto|elim I; cbn; auto].
    + destruct w as [| |w| | | | | |]; try contradiction. destruct (issubclass c CIPAddress) eqn:A.
      * apply address_class in A. unfold ipaddress_str. split.
        -- intros H. injection H as <-. rewrite py_join_separated. apply prints_address; [exact A|apply decimals].
        -- intros H. inversion H as [| | | | | |? ? NI|? ? parts I2 D| | | |]; subst; [contradiction|]. rewrite (decimals_fun _ _ D), py_join_separated. reflexivity.
      * assert (NA : ~ In c [CIPAddress; CNetworkAddress]) by (intros I; apply address_class in I; congruence). split.
        -- intros H. injection H as <-. apply prints_string. exact NA.
        -- intros H. inversion H; subst; [reflexivity|contradiction].
    + destruct l as [l|]; cbn [oid_str]; (split; [intros H; injection H as <-|intros H]).
      * rewrite py_join_separated. apply prints_oid. apply decimals.
      * inversion H as [| | | | | | | |? parts D| | |]; subst. rewrite (decimals_fun _ _ D), py_join_separated. reflexivity.
      * constructor.
      * inversion H; reflexivity.
    + split; [intros H; injection H as <-|intros H; inversion H; subst; destruct c; reflexivity].
      replace (null_str c) with (text match c with CNoSuchObject => "No Such Object" | CNoSuchInstance => "No Such Instance" | CEndOfMibView => "EndOfMibView" | _ => "<Null>" end%string) by (destruct c; reflexivity). constructor.
  - intros c l IH P s. apply plain_seq in P. rewrite py_str_seq.
    assert (Q : forall parts, str_list errs l = Ok parts <-> Forall2 (prints v2) l parts).
    { intros parts. rewrite str_list_iff. revert parts. induction l as [|x l IHl]; intros parts; [split; intros H; inversion H; constructor|].
      inversion IH as [|? ? Ix Il]; inversion P as [|? ? Px Pl]; subst. split; intros H; inversion H as [|? y ? ys E F]; subst; (constructor; [apply (Ix Px); exact E|apply (IHl Il Pl); exact F]). }
    split.
    + destruct (str_list errs l) as [parts|] eqn:E; [|discriminate]. cbn [bind]. intros H. injection H as <-. rewrite commas_separated. apply (prints_seq v2 c l parts). apply Q. reflexivity.
    + intros H. inversion H as [| | | | | | | | | | |? ? parts F]; subst. apply Q in F. rewrite F. cbn [bind]. rewrite commas_separated. reflexivity.
Qed.
