(** * Lemmas about the heap model: what the library's constructors do to the heap *)
From Coq Require Import ZArith List Bool Lia.
From Verif Require Import PyBase Classes Values Codec Manager Heap SpecHeap.
Import ListNotations.
Open Scope Z_scope.

Scheme stands_mut := Induction for stands Sort Prop
  with stand_all_mut := Induction for stand_all Sort Prop.
Combined Scheme stands_both from stands_mut, stand_all_mut.

Lemma nth_ext {A} (h t : list A) l c : nth_error h l = Some c -> nth_error (h ++ t) l = Some c.
Proof. intros E. rewrite nth_error_app1; [exact E|]. apply nth_error_Some. congruence. Qed.

(** ** Values and changes of the heap *)
Lemma stands_move (S : loc -> Prop) (W : loc -> val -> Prop) h (S' : loc -> Prop) (W' : loc -> val -> Prop) h' :
  (forall l c, S l -> nth_error h l = Some c -> S' l /\ nth_error h' l = Some c) -> (forall l v, W l v -> stands S' W' h' (IRef l) v) ->
  (forall i v, stands S W h i v -> stands S' W' h' i v) /\ (forall is vs, stand_all S W h is vs -> stand_all S' W' h' is vs).
Proof.
  intros HS HW.
  apply (stands_both S W h (fun i v _ => stands S' W' h' i v) (fun is vs _ => stand_all S' W' h' is vs)); intros;
    repeat match goal with
    | X : S ?l, Y : nth_error h ?l = Some _ |- _ => destruct (HS _ _ X Y); clear X Y
    end; try (econstructor; eassumption); auto.
Qed.
Lemma stands_ext S W h t i v : stands S W h i v -> stands S W (h ++ t) i v.
Proof. apply stands_move; [intros; split; [assumption|apply nth_ext; assumption]|intros; constructor; assumption]. Qed.
Lemma stand_all_ext S W h t is vs : stand_all S W h is vs -> stand_all S W (h ++ t) is vs.
Proof. apply stands_move; [intros; split; [assumption|apply nth_ext; assumption]|intros; constructor; assumption]. Qed.
Lemma stands_weaken (S S' : loc -> Prop) W h i v : (forall l, S l -> S' l) -> stands S W h i v -> stands S' W h i v.
Proof. intros K. apply stands_move; [auto|intros; constructor; assumption]. Qed.
Lemma stand_all_map S W h is vs : stand_all S W h is vs <-> Forall2 (stands S W h) is vs.
Proof. split; intros X; induction X; constructor; auto. Qed.

(** An object has one value. *)
Lemma int_items_inj a b : map IInt a = map IInt b -> a = b.
Proof. revert b. induction a as [|x a IH]; destruct b; cbn; intros E; try discriminate; [reflexivity|]. injection E as -> E. f_equal. auto. Qed.
Lemma now_fun h : (forall i v, now h i v -> forall w, now h i w -> w = v) /\ (forall is vs, all_now h is vs -> forall ws, all_now h is ws -> ws = vs).
Proof.
  apply (stands_both (fun _ => True) (fun _ _ => False) h (fun i v _ => forall w, now h i w -> w = v) (fun is vs _ => forall ws, all_now h is ws -> ws = vs)); intros;
    try match goal with X : now _ _ _ |- _ => inversion X; subst; clear X end;
    try match goal with X : all_now _ _ _ |- _ => inversion X; subst; clear X end; try contradiction; try reflexivity;
    repeat match goal with X : nth_error h ?l = Some _, Y : nth_error h ?l = Some _ |- _ => rewrite X in Y; injection Y; clear Y; intros; subst end;
    repeat match goal with X : assoc ?d ?a = Some _, Y : assoc ?d ?a = Some _ |- _ => rewrite X in Y; injection Y; clear Y; intros; subst end;
    repeat match goal with X : nth_error h ?l = Some _, Y : nth_error h ?l = Some _ |- _ => rewrite X in Y; injection Y; clear Y; intros; subst end;
    try congruence; try (f_equal; auto; fail).
  match goal with X : map IInt _ = map IInt _ |- _ => apply int_items_inj in X; subst; reflexivity end.
Qed.

(** ** encode() gives the octets of the value *)
Lemma vsize_in x l : In x l -> (vsize x <= fold_right (fun x n => vsize x + n) 0 l)%nat.
Proof. induction l as [|y l IH]; cbn; [tauto|]. intros [->|H]; [lia|]. specialize (IH H). lia. Qed.
Lemma encode_go l : (fix go (l : list val) : res str := match l with [] => Ok [] | x :: r => a <- encode x ;; b <- go r ;; Ok (a ++ b) end) l = encode_list l.
Proof. induction l as [|x l IH]; [reflexivity|]. cbn [encode_list]. rewrite <- IH. reflexivity. Qed.
Lemma mapM_int zs : mapM int_item (map IInt zs) = Ok zs.
Proof. induction zs as [|z zs IH]; [reflexivity|]. cbn. rewrite IH. reflexivity. Qed.
Lemma kind_cls c k : kind_of c = k -> match c with _ => kind_of c = k end. Proof. auto. Qed.
Lemma koid c : kind_of c = KOid -> c = CObjectID.
Proof. destruct c; vm_compute; intros E; try discriminate; reflexivity. Qed.

Lemma attr_at h l c d a i : nth_error h l = Some (PObj c d) -> assoc d a = Some i -> attr_of h (IRef l) a = Ok i.
Proof. intros E A. unfold attr_of. rewrite E, A. reflexivity. Qed.

Definition not_list (v : val) : Prop := match v with VPyList _ => False | _ => True end.
Lemma h_encode_now h : (forall i v, now h i v -> forall fuel, (vsize v <= fuel)%nat -> h_encode fuel h i = encode v) /\
  (forall is vs, all_now h is vs -> forall fuel, (fold_right (fun x n => vsize x + n) 0 vs <= fuel)%nat ->
     (fix go (l : list item) : res str := match l with [] => Ok [] | x :: r => a <- h_encode fuel h x ;; b <- go r ;; Ok (a ++ b) end) is = encode_list vs).
Proof.
  apply (stands_both (fun _ => True) (fun _ _ => False) h
    (fun i v _ => forall fuel, (vsize v <= fuel)%nat -> h_encode fuel h i = encode v)
    (fun is vs _ => forall fuel, (fold_right (fun x n => vsize x + n) 0 vs <= fuel)%nat ->
     (fix go (l : list item) : res str := match l with [] => Ok [] | x :: r => a <- h_encode fuel h x ;; b <- go r ;; Ok (a ++ b) end) is = encode_list vs)).
  - intros [|f] L; [cbn in L; lia|reflexivity].
  - intros z [|f] L; [cbn in L; lia|reflexivity].
  - intros s [|f] L; [cbn in L; lia|reflexivity].
  - intros l v [].
  - intros l is vs _ E _ _ [|f] L; [cbn in L; lia|]. cbn [h_encode]. rewrite E. reflexivity.
  - intros l c d z _ E K A [|f] L; [cbn in L; lia|]. cbn [h_encode encode]. rewrite E, K, (attr_at _ _ _ _ _ _ E A). reflexivity.
  - intros l c d i v _ E K A X IH [|f] L; [cbn in L; lia|]. cbn [h_encode]. rewrite E, K, (attr_at _ _ _ _ _ _ E A). cbn [bind].
    inversion X; subst; try reflexivity; contradiction.
  - intros l c d _ E K A [|f] L; [cbn in L; lia|]. cbn [h_encode]. rewrite E, K, (attr_at _ _ _ _ _ _ E A). reflexivity.
  - intros l c d a zs _ E K A _ E2 [|f] L; [cbn in L; lia|]. cbn [h_encode encode]. rewrite E, K, (attr_at _ _ _ _ _ _ E A). cbn [bind list_at]. rewrite E2. cbn [bind].
    rewrite mapM_int. rewrite (koid c K). reflexivity.
  - intros l c d _ E K [|f] L; [cbn in L; lia|]. cbn [h_encode encode]. rewrite E, K. reflexivity.
  - intros l c d a is vs _ E K A _ E2 X IH [|f] L; [cbn in L; lia|]. cbn [h_encode encode]. rewrite E, K, (attr_at _ _ _ _ _ _ E A). cbn [bind list_at]. rewrite E2. cbn [bind].
    rewrite IH by (cbn in L; lia). try rewrite encode_go. reflexivity.
  - intros l c d a b e vs _ E K A B D X IH [|f] L; [cbn in L; lia|]. cbn [h_encode encode].
    rewrite E, K, (attr_at _ _ _ _ _ _ E A), (attr_at _ _ _ _ _ _ E B), (attr_at _ _ _ _ _ _ E D). cbn [bind].
    rewrite IH by (cbn in L; lia). try rewrite encode_go. reflexivity.
  - intros fuel L. reflexivity.
  - intros i v is vs X IH1 Y IH2 fuel L. cbn [fold_right] in L. rewrite IH1 by lia. rewrite IH2 by lia. reflexivity.
Qed.

(** Conversely, when encode() succeeds there was a value to encode. *)
Lemma int_items is zs : mapM int_item is = Ok zs -> is = map IInt zs.
Proof.
  revert zs. induction is as [|i is IH]; cbn; intros zs E; [injection E as <-; reflexivity|].
  destruct i; cbn in E; try discriminate. destruct (mapM int_item is) as [ys|]; cbn in E; [|discriminate]. injection E as <-. cbn. f_equal. auto.
Qed.
Lemma attr_inv h l c d a i : nth_error h l = Some (PObj c d) -> attr_of h (IRef l) a = Ok i -> assoc d a = Some i \/ (a = Avalue /\ assoc d a = None /\ i = INone).
Proof. intros E. unfold attr_of. rewrite E. destruct (assoc d a); [left; congruence|]. destruct a; try discriminate. intros X. injection X as <-. right. auto. Qed.
Lemma h_encode_ok fuel : forall h i s, h_encode fuel h i = Ok s -> exists v, now h i v /\ encode v = Ok s.
Proof.
  induction fuel as [|f IH]; [discriminate|]. intros h i s E.
  assert (All : forall is s, (fix go (l : list item) : res str := match l with [] => Ok [] | x :: r => a <- h_encode f h x ;; b <- go r ;; Ok (a ++ b) end) is = Ok s ->
            exists vs, all_now h is vs /\ encode_list vs = Ok s).
  { induction is as [|x is IHis]; intros s0 E0; [exists []; split; [constructor|exact E0]|].
    destruct (h_encode f h x) as [a|] eqn:Ea; cbn [bind] in E0; [|discriminate].
    match type of E0 with (b <- ?g ;; _) = _ => destruct g as [b|] eqn:Eb; cbn [bind] in E0; [|discriminate] end.
    destruct (IH _ _ _ Ea) as (v & N & Ev). destruct (IHis _ eq_refl) as (vs & Ns & Evs). exists (v :: vs). split; [constructor; assumption|].
    cbn [encode_list]. rewrite Ev, Evs. exact E0. }
  destruct i as [| |t|l]; try discriminate; [exists (VPyStr t); split; [constructor|exact E]|].
  cbn [h_encode] in E. destruct (nth_error h l) as [[x|c d]|] eqn:El; try discriminate.
  destruct (kind_of c) eqn:K; try discriminate.
  - destruct (attr_of h (IRef l) Avalue) as [i|] eqn:A; cbn [bind] in E; [|discriminate]. destruct i; cbn [int_item bind] in E; try discriminate.
    destruct (attr_inv _ _ _ _ _ _ El A) as [A'|(_ & _ & ?)]; [|discriminate]. exists (VInt c z). split; [eapply st_integer; eauto|exact E].
  - destruct (attr_of h (IRef l) Avalue) as [i|] eqn:A; cbn [bind] in E; [|discriminate]. destruct i; cbn [bind] in E; try discriminate.
    destruct (attr_inv _ _ _ _ _ _ El A) as [A'|(_ & _ & ?)]; [|discriminate]. exists (VOct c (VPyStr s0)). split; [eapply st_octets; eauto; constructor|exact E].
  - destruct (attr_of h (IRef l) Avalue) as [i|] eqn:A; cbn [bind] in E; [|discriminate]. destruct (list_at h i) as [is|] eqn:Li; cbn [bind] in E; [|discriminate].
    destruct (mapM int_item is) as [zs|] eqn:M; cbn [bind] in E; [|discriminate]. apply int_items in M. subst is.
    destruct i as [| | |a]; cbn [list_at] in Li; try discriminate. destruct (nth_error h a) as [[y|]|] eqn:Ea; try discriminate. injection Li as ->.
    destruct (attr_inv _ _ _ _ _ _ El A) as [A'|(_ & _ & ?)]; [|discriminate]. exists (VOid (Some zs)). split; [eapply st_arcs; eauto|]. cbn [encode]. rewrite <- (koid c K). exact E.
  - exists (VNull c). split; [eapply st_null; eauto|exact E].
  - destruct (attr_of h (IRef l) Aversion) as [a|] eqn:A; cbn [bind] in E; [|discriminate].
    destruct (attr_of h (IRef l) Acommunity) as [b|] eqn:B; cbn [bind] in E; [|discriminate].
    destruct (attr_of h (IRef l) Adata) as [e|] eqn:D; cbn [bind] in E; [|discriminate].
    destruct (attr_inv _ _ _ _ _ _ El A) as [A'|(? & _)]; [|discriminate]. destruct (attr_inv _ _ _ _ _ _ El B) as [B'|(? & _)]; [|discriminate].
    destruct (attr_inv _ _ _ _ _ _ El D) as [D'|(? & _)]; [|discriminate].
    match type of E with (x <- ?g ;; _) = _ => destruct g as [b0|] eqn:Eb; cbn [bind] in E; [|discriminate] end.
    destruct (All [a; b; e] _ Eb) as (vs & Ns & Evs). exists (VSeq c vs). split; [eapply st_msg; eauto|]. cbn [encode]. try rewrite encode_go. change (bind (encode_list vs) (tlv c) = Ok s). rewrite Evs. exact E.
  - destruct (attr_of h (IRef l) Avalue) as [i|] eqn:A; cbn [bind] in E; [|discriminate]. destruct (list_at h i) as [is|] eqn:Li; cbn [bind] in E; [|discriminate].
    match type of E with (x <- ?g ;; _) = _ => destruct g as [b0|] eqn:Eb; cbn [bind] in E; [|discriminate] end.
    destruct i as [| | |a]; cbn [list_at] in Li; try discriminate. destruct (nth_error h a) as [[y|]|] eqn:Ea; try discriminate. injection Li as ->.
    destruct (attr_inv _ _ _ _ _ _ El A) as [A'|(_ & _ & ?)]; [|discriminate].
    destruct (All is b0 Eb) as (vs & Ns & Evs). exists (VSeq c vs). split; [eapply st_seq; eauto|]. cbn [encode]. try rewrite encode_go. change (bind (encode_list vs) (tlv c) = Ok s). rewrite Evs. exact E.
Qed.
