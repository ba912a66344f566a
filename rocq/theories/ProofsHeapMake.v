(** * The value of what the constructors make *)
From Coq Require Import ZArith List Bool Lia.
From Verif Require Import PyBase Classes Values Codec Manager Heap SpecHeap ProofsHeap ProofsHeapKeep ProofsHeapCall ProofsHeapRun.
Import ListNotations.
Open Scope Z_scope.

(** ** After encode() *)
Definition alike (c c' : cell) : Prop :=
  c' = c \/ exists k d d', c = PObj k d /\ c' = PObj k d' /\ kind_of k = KMsg /\ forall a, a <> Avalue -> assoc d' a = assoc d a.
Lemma now_alike h h' : (forall l c, nth_error h l = Some c -> exists c', nth_error h' l = Some c' /\ alike c c') ->
  (forall i v, now h i v -> now h' i v) /\ (forall is vs, all_now h is vs -> all_now h' is vs).
Proof.
  intros HS. unfold now, all_now.
  apply (stands_both (fun _ => True) (fun _ _ => False) h (fun i v _ => now h' i v) (fun is vs _ => all_now h' is vs)); unfold now, all_now; intros; try contradiction; try (constructor; auto; fail);
    repeat match goal with Y : nth_error h ?l = Some _ |- _ => let c := fresh "c" in let A := fresh "A" in let B := fresh "B" in destruct (HS _ _ Y) as (c & A & B); clear Y; destruct B as [->|(? & ? & ? & B1 & -> & B2 & B3)]; [|try discriminate B1; try (injection B1 as <- <-; congruence)] end;
    try (econstructor; eauto; fail).
  injection B1 as <- <-. eapply st_msg; eauto; rewrite B3; auto; discriminate.
Qed.
Lemma assoc_set d i a : a <> Avalue -> assoc (set_attr Avalue i d) a = assoc d a.
Proof.
  intros N. unfold set_attr. cbn [assoc]. replace (attr_eqb Avalue a) with false by (destruct a; try reflexivity; congruence).
  induction d as [|[b j] d IH]; [reflexivity|]. cbn [filter fst]. destruct (attr_eqb b Avalue) eqn:E; cbn [negb assoc].
  - destruct b; try discriminate. replace (attr_eqb Avalue a) with false by (destruct a; try reflexivity; congruence). exact IH.
  - rewrite IH. reflexivity.
Qed.
Lemma encode_message_now fuel n h v : now h (IRef n) v -> (exists c d, nth_error h n = Some (PObj c d) /\ kind_of c = KMsg) ->
  exists h', h_encode_message fuel (IRef n) h = (h', h_encode fuel h' (IRef n)) /\ now h' (IRef n) v.
Proof.
  intros V (c & d & E & K).
  assert (T : exists a b e, attr_of h (IRef n) Aversion = Ok a /\ attr_of h (IRef n) Acommunity = Ok b /\ attr_of h (IRef n) Adata = Ok e).
  { inversion V; subst; try contradiction; try congruence. rewrite E in H1. injection H1 as <- <-. exists a, b, e. repeat split; eapply attr_at; eassumption. }
  destruct T as (a & b & e & A1 & A2 & A3). unfold h_encode_message. rewrite E, A1, A2, A3. eexists. split; [reflexivity|].
  pose proof (lt_of _ _ _ E) as L.
  refine (proj1 (now_alike h _ _) _ _ V). intros l x N. pose proof (nth_ext h [PList [a; b; e]] _ _ N) as N'. destruct (Nat.eq_dec l n) as [->|D].
  - rewrite E in N. injection N as <-. eexists. split; [apply set_cell_at; rewrite app_length; lia|]. right. exists c, d, (set_attr Avalue (IRef (length h)) d). repeat split; auto. intros. apply assoc_set. assumption.
  - exists x. split; [|left; reflexivity]. rewrite set_cell_other; [exact N'|rewrite app_length; lia|exact D].
Qed.

(** ** Arguments *)
Lemma truthy_len {A} (l : list A) : negb (zlen l =? 0) = match l with [] => false | _ => true end.
Proof. destruct l; [reflexivity|]. unfold zlen. cbn [length]. destruct (Z.eqb_spec (Z.of_nat (S (length l))) 0); [lia|reflexivity]. Qed.
Lemma stand_all_len S W h is vs : stand_all S W h is vs -> zlen is = zlen vs.
Proof. intros X. unfold zlen. f_equal. induction X; cbn [length]; congruence. Qed.
Lemma kseq c : kind_of c = KSeq -> issubclass c CObjectID = false /\ issubclass c CSequence = true.
Proof. destruct c; cbn; intros E; try discriminate; split; reflexivity. Qed.
Lemma kother c : (kind_of c = KInt \/ kind_of c = KOct \/ kind_of c = KNull) -> issubclass c CObjectID || issubclass c CSequence = false.
Proof. destruct c; cbn; intros [E|[E|E]]; try discriminate; reflexivity. Qed.
Lemma truthy_stands S h i v : plain v -> stands S (fun _ _ => False) h i v -> h_truthy h i = Ok (truthy v).
Proof.
  intros P X. inversion X; subst; try reflexivity; try contradiction.
  - cbn [h_truthy truthy]. rewrite truthy_len. reflexivity.
  - cbn [h_truthy h_len]. rewrite H0. cbn [bind]. rewrite truthy_len. f_equal. destruct vs, is; inversion H1; reflexivity.
  - cbn [h_truthy]. rewrite H0, kother by auto. reflexivity.
  - cbn [h_truthy]. rewrite H0, kother by auto. reflexivity.
  - apply koid in H1 as K. subst c. cbn [h_truthy h_len]. rewrite H0. cbn -[attr_of]. rewrite (attr_at _ _ _ _ _ _ H0 H2). reflexivity.
  - apply koid in H1 as K. subst c. cbn [h_truthy h_len]. rewrite H0. cbn -[attr_of list_at zlen]. rewrite (attr_at _ _ _ _ _ _ H0 H2). cbn -[zlen]. rewrite H4. cbn -[zlen]. rewrite truthy_len. destruct zs; reflexivity.
  - cbn [h_truthy]. rewrite H0, kother by auto. reflexivity.
  - destruct (kseq _ H1) as [K1 K2]. cbn [h_truthy h_len]. rewrite H0, K1, K2. cbn [orb]. rewrite (attr_at _ _ _ _ _ _ H0 H2). cbn [bind list_at]. rewrite H4. cbn [bind]. rewrite truthy_len. cbn [truthy]. f_equal. destruct vs, is; inversion H5; reflexivity.
  - cbn in P. congruence.
Qed.
Lemma is_a_stands S h i v c : stands S (fun _ _ => False) h i v -> is_a h i c = isinstance v c.
Proof.
  intros X. unfold is_a, isinstance. inversion X; subst; try reflexivity; try contradiction; cbn [class_at class_of]; try (rewrite H0; reflexivity);
    rewrite H0; apply koid in H1; subst; reflexivity.
Qed.
Lemma stands_none S (W : loc -> val -> Prop) h i v : stands S (fun _ _ => False) h i v -> stands S W h i v.
Proof. apply stands_move; [auto|intros ? ? []]. Qed.
Lemma now_of S h i v : stands S (fun _ _ => False) h i v -> now h i v.
Proof. apply stands_weaken. auto. Qed.

Section Make.
Context (n0 : nat).
Let S0 := fun l : loc => (n0 <= l)%nat.
Let N0 := fun (_ : loc) (_ : val) => False.
Lemma made_oid h zs : (n0 <= length h)%nat -> exists t a, (v <== new (PList (map IInt zs)) ;; new (PObj CObjectID [(Avalue, v)])) h = (h ++ t, Ok a) /\ stands S0 N0 (h ++ t) a (VOid (Some zs)).
Proof.
  intros L. eexists [_; _], _. split; [unfold hbind, new; cbn [fst snd]; rewrite <- app_assoc; reflexivity|].
  assert (E1 : nth_error (h ++ [PList (map IInt zs); PObj CObjectID [(Avalue, IRef (length h))]]) (length h) = Some (PList (map IInt zs))).
  { rewrite nth_error_app2, Nat.sub_diag by lia. reflexivity. }
  assert (E2 : nth_error (h ++ [PList (map IInt zs); PObj CObjectID [(Avalue, IRef (length h))]]) (length (h ++ [PList (map IInt zs)])) = Some (PObj CObjectID [(Avalue, IRef (length h))])).
  { rewrite app_length. cbn [length]. rewrite nth_error_app2 by lia. replace (length h + 1 - length h)%nat with 1%nat by lia. reflexivity. }
  eapply st_arcs; [|exact E2|reflexivity|reflexivity| |exact E1]; unfold S0; rewrite ?app_length; lia.
Qed.
Lemma now_ints h is vs zs : all_now h is vs -> mapM val_to_int vs = Ok zs -> is = map IInt zs.
Proof.
  intros X. apply stand_all_map in X. revert zs. induction X as [|i v is vs A X IH]; intros zs E; cbn [mapM] in E; [injection E as <-; reflexivity|].
  destruct (val_to_int v) as [z|] eqn:V; cbn [bind] in E; [|discriminate]. destruct (mapM val_to_int vs) as [r|]; cbn [bind] in E; [|discriminate]. injection E as <-.
  destruct v; try discriminate. injection V as ->. cbn [map]. rewrite (IH r eq_refl). inversion A; subst; [reflexivity|contradiction].
Qed.
Lemma made_objectid h oid ov o : (n0 <= length h)%nat -> now h oid ov -> oid_init ov = Ok o ->
  exists t a, h_objectid oid h = (h ++ t, Ok a) /\ stands S0 N0 (h ++ t) a o.
Proof.
  intros L X E. inversion X; subst; try contradiction; try discriminate E; cbn [h_objectid].
  - injection E as <-. eexists _, _. split; [reflexivity|]. eapply st_noarcs; [|apply new_at|reflexivity|reflexivity]. unfold S0. lia.
  - injection E as <-. apply (made_oid h [z] L).
  - cbn [oid_init] in E. destruct (oid_of_str s) as [zs|] eqn:Z; cbn [bind] in E; [|discriminate]. injection E as <-. cbn [hbind hlift]. unfold hbind at 1. unfold hlift. apply (made_oid h zs L).
  - cbn [oid_init] in E. destruct (mapM val_to_int vs) as [zs|] eqn:Z; cbn [bind] in E; [|discriminate]. injection E as <-. rewrite H0. rewrite (now_ints _ _ _ _ H1 Z). apply made_oid. exact L.
  - apply koid in H1 as K. subst c. injection E as <-. rewrite H0. cbn [issubclass]. 
    replace (issubclass CObjectID CObjectID) with true by reflexivity. unfold hbind at 1, rd. rewrite (attr_at _ _ _ _ _ _ H0 H2). cbn [bind list_at]. rewrite H4. apply made_oid. exact L.
Qed.
Lemma made_varbind h c n v nv vv : (n0 <= length h)%nat -> kind_of c = KSeq -> plain nv -> plain vv -> stands S0 N0 h n nv -> stands S0 N0 h v vv -> varbind_init c nv vv = Ok (VSeq c [nv; vv]) ->
  exists t a, h_varbind c n v h = (h ++ t, Ok a) /\ stands S0 N0 (h ++ t) a (VSeq c [nv; vv]).
Proof.
  intros L K Pn Pv Xn Xv E. unfold h_varbind. unfold hbind at 1, rd. rewrite (truthy_stands _ _ _ _ Pn Xn), (is_a_stands _ _ _ _ _ Xn). cbn [bind].
  unfold varbind_init in E. destruct (truthy nv && negb (isinstance nv CObjectID)); [discriminate|]. unfold hbind at 1. rewrite (truthy_stands _ _ _ _ Pv Xv), (is_a_stands _ _ _ _ _ Xv). cbn [bind].
  unfold is_asn1 in E. destruct (truthy vv && negb (isinstance vv CAsn1Object)); [discriminate|]. clear E.
  eexists [_; _], _. split; [unfold hbind, new; cbn [fst snd]; rewrite <- app_assoc; reflexivity|]. rewrite app_length. cbn [length].
  eapply st_seq with (a := length h) (is := [n; v]) (d := [(AobjectID, n); (AobjectValue, v); (Avalue, IRef (length h))]); [unfold S0; lia| |exact K|reflexivity|unfold S0; lia| |].
  - rewrite nth_error_app2 by lia. replace (length h + 1 - length h)%nat with 1%nat by lia. reflexivity.
  - rewrite nth_error_app2, Nat.sub_diag by lia. reflexivity.
  - constructor; [apply stands_ext; exact Xn|]. constructor; [apply stands_ext; exact Xv|constructor].
Qed.
Lemma oid_plain ov o : oid_init ov = Ok o -> exists zs, o = VOid zs.
Proof.
  destruct ov; cbn; try discriminate; try (intros E; injection E as <-; eauto; fail).
  - destruct (oid_of_str s); cbn; [|discriminate]. intros E. injection E as <-. eauto.
  - destruct (mapM val_to_int l); cbn; [|discriminate]. intros E. injection E as <-. eauto.
  - destruct l; [|discriminate]. intros E. injection E as <-. eauto.
Qed.
Lemma made_null_binding h c oid ov o : (n0 <= length h)%nat -> kind_of c = KSeq -> now h oid ov -> oid_init ov = Ok o ->
  exists t a, h_null_binding c oid h = (h ++ t, Ok a) /\ stands S0 N0 (h ++ t) a (VSeq c [o; VNull CNull]).
Proof.
  intros L K X E. unfold h_null_binding. unfold hbind at 1. destruct (made_objectid h oid ov o L X E) as (t1 & a1 & -> & X1). destruct (oid_plain _ _ E) as [zs ->].
  unfold hbind at 1, h_null, new. 
  destruct (made_varbind ((h ++ t1) ++ [PObj CNull []]) c a1 (IRef (length (h ++ t1))) (VOid zs) (VNull CNull)) as (t2 & a2 & Y & X2); [rewrite !app_length; lia|exact K|exact Logic.I|exact Logic.I|apply stands_ext; exact X1| | |].
  - eapply st_null; [|apply new_at|reflexivity]. unfold S0. rewrite app_length. lia.
  - unfold varbind_init. cbn. rewrite andb_false_r. reflexivity.
  - rewrite Y. rewrite <- !app_assoc in *. eexists _, _. split; [reflexivity|exact X2].
Qed.
End Make.

(** ** PDUs and messages *)
(** [vbl], used as a list of bindings, has the elements [is]. *)
Definition lists (h : heap) (vbl : item) (is : list item) : Prop :=
  elems h vbl = Ok is /\ h_truthy h vbl = Ok (negb (zlen is =? 0)) /\ h_len h vbl = Ok (zlen is) /\ check_all h CVarBind is = Ok tt.
Lemma list_at_ext h t i x : list_at h i = Ok x -> list_at (h ++ t) i = Ok x.
Proof. destruct i as [| | |l]; try discriminate. cbn [list_at]. destruct (nth_error h l) as [c|] eqn:E; [|discriminate]. rewrite (nth_ext _ _ _ _ E). auto. Qed.
Lemma lists_ext h t vbl is : lists h vbl is -> lists (h ++ t) vbl is.
Proof.
  intros (A & B & C & D). 
  assert (C' : h_len (h ++ t) vbl = Ok (zlen is)).
  { destruct vbl as [| |s|l]; try discriminate; [exact C|]. cbn [h_len] in *. destruct (nth_error h l) as [[x|c d]|] eqn:E; try discriminate; rewrite (nth_ext _ _ _ _ E); [exact C|].
    destruct (issubclass c CObjectID); [|destruct (issubclass c CSequence); [|discriminate]];
      (destruct (attr_of h (IRef l) Avalue) as [i|] eqn:Ai; cbn [bind] in C; [|discriminate]); rewrite (attr_ext _ _ _ _ _ Ai); cbn [bind].
    - destruct i as [| | |k]; try exact C; destruct (list_at h _) as [x|] eqn:X; cbn [bind] in C; try discriminate; rewrite (list_at_ext _ _ _ _ X); exact C.
    - destruct (list_at h i) as [x|] eqn:X; cbn [bind] in C; try discriminate; rewrite (list_at_ext _ _ _ _ X); exact C. }
  split; [|split; [|split; [exact C'|]]].
  - clear B C C' D. destruct vbl as [| |s|l]; try discriminate; [exact A|]. cbn [elems] in *. destruct (nth_error h l) as [[x|c d]|] eqn:E; try discriminate; rewrite (nth_ext _ _ _ _ E); [exact A|].
    destruct (issubclass c CObjectID); [|destruct (issubclass c CSequence); [|discriminate]];
      (destruct (attr_of h (IRef l) Avalue) as [i|] eqn:Ai; cbn [bind] in A; [|discriminate]); rewrite (attr_ext _ _ _ _ _ Ai); cbn [bind].
    + destruct i as [| | |k]; try exact A. apply list_at_ext. exact A.
    + apply list_at_ext. exact A.
  - destruct vbl as [| |s|l]; try discriminate; [exact B|]. cbn [h_truthy] in *. destruct (nth_error h l) as [[x|c d]|] eqn:E; [| |cbn [h_len] in C; rewrite E in C; discriminate]; rewrite (nth_ext _ _ _ _ E).
    + rewrite C'. reflexivity.
    + destruct (_ || _); [|exact B]. rewrite C'. reflexivity.
  - clear - D. induction is as [|i is IH]; [reflexivity|]. cbn [check_all] in *. destruct (is_a h i CVarBind) eqn:E; [|discriminate]. cbn [negb] in D.
    assert (is_a (h ++ t) i CVarBind = true) as ->; [|apply IH; exact D]. unfold is_a, class_at in *. destruct i as [| | |l]; try discriminate. destruct (nth_error h l) as [c|] eqn:X; [|discriminate]. rewrite (nth_ext _ _ _ _ X). exact E.
Qed.
Lemma lists_seq h l c d a is : nth_error h l = Some (PObj c d) -> kind_of c = KSeq -> assoc d Avalue = Some (IRef a) -> nth_error h a = Some (PList is) -> check_all h CVarBind is = Ok tt -> lists h (IRef l) is.
Proof.
  intros E K A B C. destruct (kseq _ K) as [K1 K2]. unfold lists. cbn [elems h_truthy h_len]. rewrite E, K1, K2. cbn [orb]. rewrite (attr_at _ _ _ _ _ _ E A). cbn [bind list_at]. rewrite B. cbn [bind]. auto.
Qed.
Lemma lists_list h l is : nth_error h l = Some (PList is) -> check_all h CVarBind is = Ok tt -> lists h (IRef l) is.
Proof. intros E C. unfold lists. cbn [elems h_truthy h_len]. rewrite E. auto. Qed.
Definition pdu_val (c : cls) (id : Z) (vs : list val) : val :=
  if issubclass c CPDU_v2 then VSeq c [VInt CInteger32 id; VInt CErrorStatus_v2 0; VInt CInteger 0; VSeq CVarBindList_v2 vs]
  else VSeq c [VInt CInteger id; VInt CErrorStatus 0; VInt CInteger 0; VSeq CVarBindList vs].
Definition id_range (c : cls) (id : Z) : Prop :=
  let k := if issubclass c CPDU_v2 then CInteger32 else CInteger in MINVAL k <= id <= MAXVAL k.
Section Pdu.
Context (n0 : nat) (W : loc -> val -> Prop).
Let S0 := fun l : loc => (n0 <= l)%nat.
Lemma made_integer h c z : (n0 <= length h)%nat -> kind_of c = KInt -> MINVAL c <= z <= MAXVAL c ->
  exists t a, h_integer c (IInt z) h = (h ++ t, Ok a) /\ stands S0 W (h ++ t) a (VInt c z).
Proof.
  intros L K R. cbn [h_integer]. assert ((MINVAL c <=? z) && (z <=? MAXVAL c) = true) as ->. { destruct (Z.leb_spec (MINVAL c) z), (Z.leb_spec z (MAXVAL c)); try reflexivity; lia. }
  eexists _, _. split; [reflexivity|]. eapply st_integer; [|apply new_at|exact K|reflexivity]. unfold S0. lia.
Qed.
Lemma made_seqof h c vbl is vs : (n0 <= length h)%nat -> kind_of c = KSeq -> lists h vbl is -> stand_all S0 W h is vs ->
  exists t a, h_sequenceof c CVarBind vbl h = (h ++ t, Ok a) /\ stands S0 W (h ++ t) a (VSeq c vs) /\ lists (h ++ t) a is.
Proof.
  intros L K Ls X. assert (Ls' := Ls). destruct Ls as (A & B & C & D). unfold h_sequenceof. unfold hbind at 1, rd. rewrite B. cbn [bind].
  assert (E : (if negb (zlen is =? 0) then l <- elems h vbl ;; _ <- check_all h CVarBind l ;; Ok l else Ok []) = Ok is).
  { rewrite truthy_len. destruct is; [reflexivity|]. rewrite A. cbn [bind]. rewrite D. reflexivity. }
  rewrite E. eexists [_; _], _. split; [unfold hbind, new; cbn [fst snd]; rewrite <- app_assoc; reflexivity|]. rewrite app_length. cbn [length].
  set (g := h ++ [PList is; PObj c [(Avalue, IRef (length h))]]).
  assert (E1 : nth_error g (length h + 1) = Some (PObj c [(Avalue, IRef (length h))])).
  { unfold g. rewrite nth_error_app2 by lia. replace (length h + 1 - length h)%nat with 1%nat by lia. reflexivity. }
  assert (E2 : nth_error g (length h) = Some (PList is)). { unfold g. rewrite nth_error_app2, Nat.sub_diag by lia. reflexivity. }
  split; [|eapply lists_seq; try eassumption; [reflexivity|apply (lists_ext h [_; _] _ _ Ls')]].
  eapply st_seq with (a := length h) (is := is) (d := [(Avalue, IRef (length h))]); [unfold S0; lia|exact E1|exact K|reflexivity|unfold S0; lia|exact E2|].
  apply stand_all_ext. exact X.
Qed.
Ltac made L := let t := fresh "t" in let a := fresh "a" in let E := fresh "E" in let X := fresh "X" in destruct L as (t & a & E & X); unfold hbind at 1; rewrite E; clear E.
Lemma made_four h c a1 a2 a3 a4 v1 v2 v3 v4 n1 n2 n3 n4 : (n0 <= length h)%nat -> kind_of c = KSeq -> stand_all S0 W h [a1; a2; a3; a4] [v1; v2; v3; v4] -> Avalue <> n1 -> Avalue <> n2 -> Avalue <> n3 -> Avalue <> n4 ->
  exists t a, (l <== new (PList [a1; a2; a3; a4]) ;; new (PObj c [(n1, a1); (n2, a2); (n3, a3); (n4, a4); (Avalue, l)])) h = (h ++ t, Ok a) /\ stands S0 W (h ++ t) a (VSeq c [v1; v2; v3; v4]).
Proof.
  intros L K X N1 N2 N3 N4. eexists [_; _], _. split; [unfold hbind, new; cbn [fst snd]; rewrite <- app_assoc; reflexivity|]. rewrite app_length. cbn [length].
  eapply st_seq with (a := length h) (is := [a1; a2; a3; a4]) (d := [(n1, a1); (n2, a2); (n3, a3); (n4, a4); (Avalue, IRef (length h))]); [unfold S0; lia| |exact K| |unfold S0; lia| |].
  - rewrite nth_error_app2 by lia. replace (length h + 1 - length h)%nat with 1%nat by lia. reflexivity.
  - clear - N1 N2 N3 N4. cbn [assoc]. replace (attr_eqb n1 Avalue) with false by (destruct n1; try reflexivity; congruence). replace (attr_eqb n2 Avalue) with false by (destruct n2; try reflexivity; congruence).
    replace (attr_eqb n3 Avalue) with false by (destruct n3; try reflexivity; congruence). replace (attr_eqb n4 Avalue) with false by (destruct n4; try reflexivity; congruence). reflexivity.
  - rewrite nth_error_app2, Nat.sub_diag by lia. reflexivity.
  - apply stand_all_ext. exact X.
Qed.
Lemma made_pdu1 h c z vbl is vs : (n0 <= length h)%nat -> kind_of c = KSeq -> MINVAL CInteger <= z <= MAXVAL CInteger -> lists h vbl is -> stand_all S0 W h is vs ->
  exists t a, h_pdu1 c (IInt z) (IInt 0) (IInt 0) vbl h = (h ++ t, Ok a) /\ stands S0 W (h ++ t) a (VSeq c [VInt CInteger z; VInt CErrorStatus 0; VInt CInteger 0; VSeq CVarBindList vs]).
Proof.
  intros L K R Ls X. unfold h_pdu1. made (made_integer h CInteger z L eq_refl R).
  assert (L1 : (n0 <= length (h ++ t))%nat) by (rewrite app_length; lia). made (made_integer (h ++ t) CErrorStatus 0 L1 eq_refl ltac:(cbn; lia)).
  assert (L2 : (n0 <= length ((h ++ t) ++ t0))%nat) by (rewrite app_length; lia). made (made_integer ((h ++ t) ++ t0) CInteger 0 L2 eq_refl ltac:(cbn; lia)).
  assert (L3 : (n0 <= length (((h ++ t) ++ t0) ++ t1))%nat) by (rewrite app_length; lia). 
  unfold h_varbindlist. destruct (made_seqof (((h ++ t) ++ t0) ++ t1) CVarBindList vbl is vs L3 eq_refl ltac:(repeat apply lists_ext; exact Ls) ltac:(repeat apply stand_all_ext; exact X)) as (t2 & a2 & E2 & Xs & _).
  unfold hbind at 1. rewrite E2. clear E2.
  edestruct (made_four ((((h ++ t) ++ t0) ++ t1) ++ t2) c a a0 a1 a2) as (t3 & a3 & -> & Y); [rewrite app_length; lia|exact K| | | | | |].
  - constructor; [repeat first [eassumption|apply stands_ext]|]. constructor; [repeat first [eassumption|apply stands_ext]|]. constructor; [repeat first [eassumption|apply stands_ext]|]. constructor; [eassumption|constructor].
  - discriminate.
  - discriminate.
  - discriminate.
  - discriminate.
  - rewrite <- !app_assoc in *. eexists _, _. split; [reflexivity|exact Y].
Qed.
Lemma lists_default h : defaults_ok h -> lists h default_pdu [].
Proof. intros D. assert (E : nth_error h 1 = Some (PList [])) by (apply D; lia). unfold lists, default_pdu. cbn [elems h_truthy h_len]. rewrite E. repeat split. Qed.
Lemma made_pdu2 h c z vbl is vs : (n0 <= length h)%nat -> defaults_ok h -> kind_of c = KSeq -> MINVAL CInteger32 <= z <= MAXVAL CInteger32 -> zlen is <= max_bindings -> lists h vbl is -> stand_all S0 W h is vs ->
  exists t a, h_pdu2 c (IInt z) (IInt 0) (IInt 0) vbl h = (h ++ t, Ok a) /\ stands S0 W (h ++ t) a (VSeq c [VInt CInteger32 z; VInt CErrorStatus_v2 0; VInt CInteger 0; VSeq CVarBindList_v2 vs]).
Proof.
  intros L D K R Mx Ls X. unfold h_pdu2. destruct (made_pdu1 h c 0 default_pdu [] [] L K ltac:(cbn; lia) (lists_default h D) (sa_nil _ _ _)) as (t0 & a0 & E0 & _). unfold hbind at 1. rewrite E0. clear E0.
  unfold hbind at 1, hlift. cbn [not_above]. replace (max_bindings <? 0) with false by reflexivity. cbv beta iota.
  assert (L0 : (n0 <= length (h ++ t0))%nat) by (rewrite app_length; lia). apply (lists_ext h t0) in Ls. apply (stand_all_ext S0 W h t0) in X. revert L0 Ls X. remember (h ++ t0) as g eqn:Eg. intros L0 Ls X.
  made (made_integer g CInteger32 z L0 eq_refl R).
  assert (L1 : (n0 <= length (g ++ t))%nat) by (rewrite app_length; lia). made (made_integer (g ++ t) CErrorStatus_v2 0 L1 eq_refl ltac:(cbn; lia)).
  assert (L2 : (n0 <= length ((g ++ t) ++ t1))%nat) by (rewrite app_length; lia). made (made_integer ((g ++ t) ++ t1) CInteger 0 L2 eq_refl ltac:(cbn; lia)).
  assert (L3 : (n0 <= length (((g ++ t) ++ t1) ++ t2))%nat) by (rewrite app_length; lia).
  assert (E4 : h_varbindlist2 vbl (((g ++ t) ++ t1) ++ t2) = h_sequenceof CVarBindList_v2 CVarBind vbl (((g ++ t) ++ t1) ++ t2)).
  { unfold h_varbindlist2, hbind at 1, rd. pose proof (lists_ext _ t2 _ _ (lists_ext _ t1 _ _ (lists_ext _ t _ _ Ls))) as (_ & _ & Hl & _). rewrite Hl. destruct (Z.ltb_spec max_bindings (zlen is)); [lia|reflexivity]. }
  unfold hbind at 1. rewrite E4. clear E4.
  destruct (made_seqof (((g ++ t) ++ t1) ++ t2) CVarBindList_v2 vbl is vs L3 eq_refl ltac:(repeat apply lists_ext; exact Ls) ltac:(repeat apply stand_all_ext; exact X)) as (t3 & a3 & -> & Y & _).
  edestruct (made_four ((((g ++ t) ++ t1) ++ t2) ++ t3) c a a1 a2 a3) as (t4 & a4 & -> & Z); [rewrite app_length; lia|exact K| | | | | |].
  - constructor; [repeat first [eassumption|apply stands_ext]|]. constructor; [repeat first [eassumption|apply stands_ext]|]. constructor; [repeat first [eassumption|apply stands_ext]|]. constructor; [eassumption|constructor].
  - discriminate.
  - discriminate.
  - discriminate.
  - discriminate.
  - subst g. rewrite <- !app_assoc in *. eexists _, _. split; [reflexivity|exact Z].
Qed.
Lemma made_pdu h c z vbl is vs : (n0 <= length h)%nat -> defaults_ok h -> kind_of c = KSeq -> id_range c z -> (issubclass c CPDU_v2 = true -> zlen is <= max_bindings) -> lists h vbl is -> stand_all S0 W h is vs ->
  exists t a, h_pdu c (IInt z) (IInt 0) (IInt 0) vbl h = (h ++ t, Ok a) /\ stands S0 W (h ++ t) a (pdu_val c z vs).
Proof.
  intros L D K R Mx Ls X. unfold h_pdu, pdu_val, id_range in *. destruct (issubclass c CPDU_v2); [eapply made_pdu2|eapply made_pdu1]; eauto.
Qed.
Lemma made_message h c n com d dv : (n0 <= length h)%nat -> (c = CMessage /\ n = 0 \/ c = CMessage_v2 /\ n = 1) -> stands S0 W h d dv ->
  exists t a, h_message c n (IStr com) d h = (h ++ t, Ok a) /\ stands S0 W (h ++ t) a (VSeq c [VInt CInteger n; VOct COctetString (VPyStr com); dv]).
Proof.
  intros L C X. unfold h_message. unfold hbind at 1, new at 1. cbv beta iota.
  assert (L1 : (n0 <= length (h ++ [PList []]))%nat) by (rewrite app_length; lia).
  made (made_integer (h ++ [PList []]) CInteger n L1 eq_refl ltac:(destruct C as [[_ ->]|[_ ->]]; cbn; lia)).
  set (g := (h ++ [PList []]) ++ t) in *. unfold h_octetstring, py_copy.
  exists ([PList []] ++ t ++ [PObj COctetString [(Avalue, IStr com)]; PObj c [(Avalue, IRef (length h)); (Aversion, a); (Acommunity, IRef (length g)); (Adata, d)]]), (IRef (length (g ++ [PObj COctetString [(Avalue, IStr com)]]))).
  assert (Eg : h ++ [PList []] ++ t ++ [PObj COctetString [(Avalue, IStr com)]; PObj c [(Avalue, IRef (length h)); (Aversion, a); (Acommunity, IRef (length g)); (Adata, d)]] =
    g ++ [PObj COctetString [(Avalue, IStr com)]; PObj c [(Avalue, IRef (length h)); (Aversion, a); (Acommunity, IRef (length g)); (Adata, d)]]) by (unfold g; rewrite <- !app_assoc; reflexivity).
  assert (Lg : (n0 <= length g)%nat) by (unfold g; rewrite app_length; lia).
  rewrite Eg. split; [unfold hbind, hret, new; cbn [fst snd]; rewrite <- app_assoc; reflexivity|]. rewrite app_length. cbn [length].
  eapply st_msg with (a := a) (b := IRef (length g)) (e := d) (d := [(Avalue, IRef (length h)); (Aversion, a); (Acommunity, IRef (length g)); (Adata, d)]); [unfold S0; lia| |destruct C as [[-> _]|[-> _]]; reflexivity|reflexivity|reflexivity|reflexivity|].
  - rewrite nth_error_app2 by lia. replace (length g + 1 - length g)%nat with 1%nat by lia. reflexivity.
  - constructor; [apply stands_ext; assumption|]. constructor; [|constructor; [unfold g; repeat apply stands_ext; exact X|constructor]].
    eapply st_octets with (i := IStr com); [unfold S0; exact Lg|rewrite nth_error_app2, Nat.sub_diag by lia; reflexivity|reflexivity|reflexivity|constructor].
Qed.
End Pdu.
