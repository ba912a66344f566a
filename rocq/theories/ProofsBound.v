(** * Proofs: what decode() builds is bounded by what it reads. *)
From Coq Require Import ZArith List Bool Lia.
From Verif Require Import PyBase Classes Values Codec SpecBER SpecSize SpecBound Bits SpecNumber ProofsInt ProofsNumber ProofsDecode ProofsPrint ProofsObj SpecWire ProofsWire.
Import ListNotations.
Open Scope Z_scope.

Definition weight (v : val) : Z := 2 * objects v + characters v + components v + integers v.
Lemma sum_weight l : sum weight l = 2 * sum objects l + sum characters l + sum components l + sum integers l.
Proof. induction l as [|x l IH]; [reflexivity|]. unfold sum in *. cbn [fold_right]. rewrite IH. unfold weight. lia. Qed.
Lemma weight_seq c l : weight (VSeq c l) = 2 + sum weight l.
Proof. rewrite sum_weight. unfold weight. cbn [objects characters components integers]. unfold sum. lia. Qed.
Lemma weight_list l : weight (VPyList l) = sum weight l.
Proof. rewrite sum_weight. unfold weight. cbn [objects characters components integers]. unfold sum. lia. Qed.
Lemma sum_app f a b : sum f (a ++ b) = sum f a + sum f b.
Proof. induction a as [|x a IH]; [reflexivity|]. unfold sum in *. cbn. rewrite IH. lia. Qed.
Lemma sum_cons f x l : sum f (x :: l) = f x + sum f l. Proof. reflexivity. Qed.

Fixpoint val_rec' (P : val -> Prop) (H0 : P VNone) (H1 : forall z, P (VPyInt z)) (H2 : forall s, P (VPyStr s)) (H3 : forall l, Forall P l -> P (VPyList l))
  (H4 : forall c z, P (VInt c z)) (H5 : forall c v, P v -> P (VOct c v)) (H6 : forall l, P (VOid l)) (H7 : forall c, P (VNull c)) (H8 : forall c l, Forall P l -> P (VSeq c l)) (v : val) : P v :=
  let go := fix go l : Forall P l := match l with [] => Forall_nil P | x :: r => Forall_cons x (val_rec' P H0 H1 H2 H3 H4 H5 H6 H7 H8 x) (go r) end in
  match v with
  | VNone => H0 | VPyInt z => H1 z | VPyStr s => H2 s | VPyList l => H3 l (go l) | VInt c z => H4 c z
  | VOct c w => H5 c w (val_rec' P H0 H1 H2 H3 H4 H5 H6 H7 H8 w) | VOid l => H6 l | VNull c => H7 c | VSeq c l => H8 c l (go l)
  end.
Lemma counts_nonneg v : 0 <= objects v /\ 0 <= characters v /\ 0 <= components v /\ 0 <= integers v.
Proof.
  induction v as [| | |l IH| |c v _|l| |c l IH] using val_rec'; cbn [objects characters components integers]; try (repeat split; lia).
  - induction IH as [|x l Hx _ IH]; cbn [fold_right]; lia.
  - destruct v; repeat split; try lia. apply zlen_nonneg.
  - destruct l as [l|]; lia.
  - induction IH as [|x l Hx _ IH]; cbn [fold_right]; lia.
Qed.
Lemma weight_nonneg v : 0 <= weight v. Proof. unfold weight. pose proof (counts_nonneg v). lia. Qed.
Lemma sum_weight_nonneg l : 0 <= sum weight l.
Proof. induction l as [|x l IH]; [unfold sum; cbn; lia|]. rewrite sum_cons. pose proof (weight_nonneg x). lia. Qed.

(** ** Building *)

(** Decoded values contain no Python lists. *)
Fixpoint nolist (v : val) : bool := match v with VPyList _ => false | VSeq _ l => forallb nolist l | _ => true end.
Definition solid (v : val) : Prop := nolist v = true /\ class_of v <> None.
(** The numbers in a value. *)
Fixpoint small (k : Z) (v : val) : Prop :=
  match v with
  | VInt _ z => Z.abs z < 256 ^ k
  | VOid (Some l) => Forall (fun x => 0 <= x < 128 ^ k) l
  | VPyList l | VSeq _ l => (fix go l : Prop := match l with [] => True | x :: r => small k x /\ go r end) l
  | _ => True
  end.
Lemma small_seq k c l : small k (VSeq c l) <-> Forall (small k) l.
Proof.
  cbn [small]. induction l as [|x l IH]; [split; auto|]. rewrite Forall_cons_iff, <- IH. reflexivity.
Qed.
Definition fine (k : Z) (v : val) : Prop := solid v /\ small k v.

Lemma index0 {A} (l : list A) x : py_index l 0 = Ok x -> exists r, l = x :: r.
Proof. unfold py_index. cbn. destruct l as [|a r]; [discriminate|]. destruct (zlen (a :: r) <=? 0); [discriminate|]. cbn. intros E. injection E as <-. eauto. Qed.
Lemma index1 {A} (a : A) r x : py_index (a :: r) 1 = Ok x -> exists r', r = x :: r'.
Proof. unfold py_index. cbv zeta. change (1 <? 0) with false. cbn [orb]. cbv iota. change (1 <? 0) with false. cbn [orb]. destruct (zlen (a :: r) <=? 1); [intros E; discriminate E|]. change (Z.to_nat 1) with 1%nat. destruct r as [|b r]; cbn [nth_error]; intros E; [discriminate E|]. injection E as <-. eauto. Qed.

Lemma build_bound k c item vb : nolist item = true -> small k item -> build_varbind c item = Ok vb -> weight vb <= weight item /\ nolist vb = true /\ small k vb.
Proof.
  unfold build_varbind. destruct item as [| |s|l| | |[l|]| |c' l]; cbn [py_getitem]; try discriminate; intros N S.
  - destruct (py_index s 0) as [a|] eqn:E0; [|discriminate]. cbn [bind]. destruct (py_index s 1) as [b|] eqn:E1; [|discriminate]. cbn [bind]. unfold varbind_init. cbn. intros E. discriminate E.
  - destruct (py_index l 0) as [a|] eqn:E0; [|discriminate]. cbn [bind]. destruct (py_index l 1) as [b|] eqn:E1; [|discriminate]. cbn [bind].
    unfold varbind_init. destruct (truthy (VPyInt a) && _); [discriminate|]. destruct (truthy (VPyInt b) && _); [discriminate|]. intros E. injection E as <-.
    split; [|split; [reflexivity|cbn; auto]]. unfold weight. cbn [objects characters components integers fold_right]. lia.
  - cbn [bind]. destruct (py_index l 0) as [a|] eqn:E0; [|discriminate]. cbn [bind]. destruct (py_index l 1) as [b|] eqn:E1; [|discriminate]. cbn [bind].
    destruct (index0 _ _ E0) as [r ->]. destruct (index1 _ _ _ E1) as [r' ->].
    unfold varbind_init. destruct (truthy a && _); [discriminate|]. destruct (truthy b && _); [discriminate|]. intros E. injection E as <-.
    rewrite !weight_seq. rewrite !sum_cons. pose proof (sum_weight_nonneg r'). apply small_seq in S. rewrite small_seq. cbn [nolist forallb] in *.
    apply andb_prop in N as [N1 N]. apply andb_prop in N as [N2 N]. inversion S as [|? ? S1 S']; subst. inversion S' as [|? ? S2 S'']; subst.
    change (sum weight []) with 0. split; [lia|]. split; [rewrite N1, N2; reflexivity|]. constructor; [exact S1|]. constructor; [exact S2|constructor].
Qed.
Lemma builds_bound k c items : forallb nolist items = true -> Forall (small k) items -> forall vbs, mapM (build_varbind c) items = Ok vbs ->
  sum weight vbs <= sum weight items /\ forallb nolist vbs = true /\ Forall (small k) vbs.
Proof.
  induction items as [|x items IH]; intros N S vbs E; cbn [mapM] in E; [injection E as <-; repeat split; try lia; constructor|].
  destruct (build_varbind c x) as [vb|] eqn:E1; [|discriminate]. cbn [bind] in E. destruct (mapM (build_varbind c) items) as [r|] eqn:E2; [|discriminate]. injection E as <-.
  cbn [forallb] in N. apply andb_prop in N as [N1 N2]. inversion S as [|? ? S1 S2]; subst.
  destruct (build_bound k c x vb N1 S1 E1) as (A & B & C). destruct (IH N2 S2 r eq_refl) as (A' & B' & C'). rewrite !sum_cons. cbn [forallb]. rewrite B, B'. repeat split; try lia. constructor; assumption.
Qed.
Lemma list_bound k c o items vbs : fine k o -> py_iter o = Ok items -> mapM (build_varbind c) items = Ok vbs ->
  2 + sum weight vbs <= weight o /\ forallb nolist vbs = true /\ Forall (small k) vbs.
Proof.
  intros ((N & C) & S) I M. destruct o as [| | | | | |[l|]| |c' l]; try discriminate I; try (elim C; reflexivity).
  - cbn in I. injection I as <-. destruct l as [|a l]; [|discriminate M]. injection M as <-. repeat split; try constructor. unfold weight. cbn. clear; lia.
  - cbn in I. injection I as <-. rewrite weight_seq. apply small_seq in S. cbn [nolist] in N. destruct (builds_bound k c l N S vbs M) as (A & B & D). repeat split; try assumption. lia.
Qed.
Lemma appends_app ct : forall items acc l, sequenceof_appends ct acc items = Ok l -> l = acc ++ items.
Proof.
  induction items as [|x items IH]; intros acc l E; cbn [sequenceof_appends] in E; [injection E as <-; rewrite app_nil_r; reflexivity|].
  unfold sequenceof_append in E. destruct (negb (isinstance x ct)); [discriminate|]. cbn [bind] in E. rewrite (IH _ _ E), <- app_assoc. reflexivity.
Qed.
Lemma sequenceof_same c ct v w l : v = VPyList l \/ (exists d, v = VSeq d l) -> sequenceof_init c ct v = Ok w -> w = VSeq c l.
Proof.
  intros H. unfold sequenceof_init. destruct (truthy v) eqn:T.
  - assert (I : py_iter v = Ok l) by (destruct H as [-> |[d ->]]; reflexivity). rewrite I. cbn [bind]. destruct (sequenceof_appends ct [] l) as [r|] eqn:E; [|discriminate]. cbn [bind].
    intros X. injection X as <-. rewrite (appends_app _ _ _ _ E). reflexivity.
  - intros X. injection X as <-. destruct l; [reflexivity|]. destruct H as [-> |[d ->]]; discriminate T.
Qed.
Lemma v2_list_same v w l : v = VPyList l \/ (exists d, v = VSeq d l) -> varbindlist_v2_init v = Ok w -> exists c, w = VSeq c l.
Proof.
  intros H. unfold varbindlist_v2_init. destruct (py_len v); [|discriminate]. cbn [bind]. destruct (max_bindings <? a); [discriminate|]. intros E. eexists. eapply sequenceof_same; eassumption.
Qed.
Lemma integer_same c z w : integer_init c (VPyInt z) = Ok w -> w = VInt c z.
Proof. unfold integer_init. destruct (_ && _); [|discriminate]. intros E. injection E as <-. reflexivity. Qed.
Lemma pdu_shape c a b d v l w : v = VPyList l \/ (exists d, v = VSeq d l) -> pdu_init c (VPyInt a) (VPyInt b) (VPyInt d) v = Ok w \/ bulkpdu_init c (VPyInt a) (VPyInt b) (VPyInt d) v = Ok w ->
  exists k1 k2 k3 k4, w = VSeq c [VInt k1 a; VInt k2 b; VInt k3 d; VSeq k4 l].
Proof.
  intros H [E|E].
  - unfold pdu_init in E. destruct (issubclass c CPDU_v2).
    + unfold pdu_v2_init in E. destruct (gt_max_bindings (VPyInt d)) as [[]|]; try discriminate E. cbn [bind] in E.
      destruct (integer_init CInteger32 (VPyInt a)) as [x|] eqn:E1; [|discriminate]. apply integer_same in E1. subst x. cbn [bind] in E.
      destruct (integer_init CErrorStatus_v2 (VPyInt b)) as [x|] eqn:E1; [|discriminate]. apply integer_same in E1. subst x. cbn [bind] in E.
      destruct (integer_init CInteger (VPyInt d)) as [x|] eqn:E1; [|discriminate]. apply integer_same in E1. subst x. cbn [bind] in E.
      destruct (varbindlist_v2_init v) as [x|] eqn:E1; [|discriminate]. apply (v2_list_same _ _ _ H) in E1 as [k ->]. injection E as <-. eauto 6.
    + unfold pdu_v1_init in E.
      destruct (integer_init CInteger (VPyInt a)) as [x|] eqn:E1; [|discriminate]. apply integer_same in E1. subst x. cbn [bind] in E.
      destruct (integer_init CErrorStatus (VPyInt b)) as [x|] eqn:E1; [|discriminate]. apply integer_same in E1. subst x. cbn [bind] in E.
      destruct (integer_init CInteger (VPyInt d)) as [x|] eqn:E1; [|discriminate]. apply integer_same in E1. subst x. cbn [bind] in E.
      destruct (varbindlist_init v) as [x|] eqn:E1; [|discriminate]. unfold varbindlist_init in E1. apply (sequenceof_same _ _ _ _ _ H) in E1 as ->. injection E as <-. eauto 6.
  - unfold bulkpdu_init in E. destruct (gt_max_bindings (VPyInt b)) as [[]|]; try discriminate E. cbn [bind] in E. destruct (gt_max_bindings (VPyInt d)) as [[]|]; try discriminate E. cbn [bind] in E.
    destruct (integer_init CInteger32 (VPyInt a)) as [x|] eqn:E1; [|discriminate]. apply integer_same in E1. subst x. cbn [bind] in E.
    destruct (integer_init CInteger (VPyInt b)) as [x|] eqn:E1; [|discriminate]. apply integer_same in E1. subst x. cbn [bind] in E.
    destruct (integer_init CInteger (VPyInt d)) as [x|] eqn:E1; [|discriminate]. apply integer_same in E1. subst x. cbn [bind] in E.
    destruct (varbindlist_v2_init v) as [x|] eqn:E1; [|discriminate]. apply (v2_list_same _ _ _ H) in E1 as [k ->]. injection E as <-. eauto 6.
Qed.
Lemma fine_int k o z : fine k o -> py_int o = Ok z -> exists c, o = VInt c z.
Proof. intros ((N & C) & S) E. destruct o; try discriminate E; try (elim C; reflexivity). injection E as <-. eauto. Qed.
Lemma four_bound k c o0 o1 o2 o3 r e i items c' vbs w v : fine k o0 -> fine k o1 -> fine k o2 -> fine k o3 ->
  py_int o0 = Ok r -> py_int o1 = Ok e -> py_int o2 = Ok i -> py_iter o3 = Ok items -> mapM (build_varbind c') items = Ok vbs ->
  v = VPyList vbs \/ (exists d, v = VSeq d vbs) -> pdu_init c (VPyInt r) (VPyInt e) (VPyInt i) v = Ok w \/ bulkpdu_init c (VPyInt r) (VPyInt e) (VPyInt i) v = Ok w ->
  weight w <= 2 + sum weight [o0; o1; o2; o3] /\ fine k w.
Proof.
  intros F0 F1 F2 F3 I0 I1 I2 I3 M V P. destruct (pdu_shape _ _ _ _ _ _ _ V P) as (k1 & k2 & k3 & k4 & ->).
  destruct (list_bound k c' o3 items vbs F3 I3 M) as (A & B & C).
  destruct (fine_int _ _ _ F0 I0) as [d0 ->]. destruct (fine_int _ _ _ F1 I1) as [d1 ->]. destruct (fine_int _ _ _ F2 I2) as [d2 ->].
  split.
  - rewrite weight_seq, !sum_cons, weight_seq. change (sum weight []) with 0. change (weight (VInt d0 r)) with 3. change (weight (VInt d1 e)) with 3. change (weight (VInt d2 i)) with 3.
    change (weight (VInt k1 r)) with 3. change (weight (VInt k2 e)) with 3. change (weight (VInt k3 i)) with 3. lia.
  - split; [split; [cbn [nolist forallb]; rewrite B; reflexivity|discriminate]|]. apply small_seq. constructor; [exact (proj2 F0)|]. constructor; [exact (proj2 F1)|]. constructor; [exact (proj2 F2)|].
    constructor; [apply small_seq; exact C|constructor].
Qed.
Lemma Forall_fine_nolist k l : Forall (fine k) l -> forallb nolist l = true /\ Forall (small k) l.
Proof. induction 1 as [|x l ((N & _) & S) _ [IH1 IH2]]; [split; constructor|]. cbn [forallb]. rewrite N, IH1. split; [reflexivity|constructor; assumption]. Qed.
Lemma pdu_bound k c objs w : Forall (fine k) objs -> pdu_of_objects c objs = Ok w \/ bulkpdu_of_objects c objs = Ok w -> weight w <= 2 + sum weight objs /\ fine k w.
Proof.
  intros F. destruct objs as [|o0 [|o1 [|o2 [|o3 [|o4 objs]]]]]; try (intros [E|E]; discriminate E).
  inversion F as [|? ? F0 F']; subst. inversion F' as [|? ? F1 F'']; subst. inversion F'' as [|? ? F2 F3]; subst. inversion F3 as [|? ? F4 _]; subst.
  intros [E|E]; cbn [pdu_of_objects bulkpdu_of_objects] in E;
    (destruct (py_iter o3) as [items|] eqn:I3; [|discriminate]; cbn [bind] in E; destruct (mapM _ items) as [vbs|] eqn:M; [|discriminate]; cbn [bind] in E;
     destruct (py_int o0) as [r|] eqn:I0; [|discriminate]; cbn [bind] in E; destruct (py_int o1) as [e|] eqn:I1; [|discriminate]; cbn [bind] in E; destruct (py_int o2) as [i|] eqn:I2; [|discriminate]; cbn [bind] in E).
  - eapply (four_bound k c o0 o1 o2 o3 r e i items _ vbs w (VSeq CVarBindList vbs)); try eassumption; eauto.
  - eapply (four_bound k c o0 o1 o2 o3 r e i items _ vbs w (VPyList vbs)); try eassumption; eauto.
Qed.
Lemma trap_bound k objs w : Forall (fine k) objs -> trappdu_of_objects objs = Ok w -> weight w <= 2 + sum weight objs /\ fine k w.
Proof.
  intros F E. destruct objs as [|o0 [|o1 [|o2 [|o3 [|o4 [|o5 [|o6 objs]]]]]]]; try discriminate E. cbn [trappdu_of_objects] in E.
  inversion F as [|? ? F0 Fa]; subst. inversion Fa as [|? ? F1 Fb]; subst. inversion Fb as [|? ? F2 Fc]; subst. inversion Fc as [|? ? F3 Fd]; subst. inversion Fd as [|? ? F4 Fe]; subst. inversion Fe as [|? ? F5 _]; subst.
  destruct (py_iter o5) as [items|] eqn:I5; [|discriminate]. cbn [bind] in E. destruct (mapM _ items) as [vbs|] eqn:M; [|discriminate]. cbn [bind] in E.
  destruct (py_int o2) as [g|] eqn:I2; [|discriminate]. cbn [bind] in E. destruct (integer_init CGenericTrap (VPyInt g)) as [gt|] eqn:G; [|discriminate]. apply integer_same in G. subst gt. cbn [bind] in E.
  injection E as <-. destruct (list_bound k _ o5 items vbs F5 I5 M) as (A & B & C). destruct (fine_int _ _ _ F2 I2) as [d2 ->]. unfold trappdu_init. split.
  - rewrite weight_seq, !sum_cons, weight_seq. change (sum weight []) with 0. change (weight (VInt d2 g)) with 3. change (weight (VInt CGenericTrap g)) with 3. lia.
  - split; [split; [cbn [nolist forallb]; rewrite B, (proj1 (proj1 F0)), (proj1 (proj1 F1)), (proj1 (proj1 F3)), (proj1 (proj1 F4)); reflexivity|discriminate]|].
    apply small_seq. repeat (constructor; [first [apply F0|apply F1|apply F2|apply F3|apply F4|apply small_seq; exact C]|]). constructor.
Qed.

(** ** Contents *)
Lemma be_value_bound l : octet_string l -> 0 <= be_value l < 256 ^ zlen l.
Proof.
  induction 1 as [|b l Hb _ IH]; [cbn; lia|]. cbn [be_value]. change (Z.of_nat (length l)) with (zlen l). pose proof (zlen_nonneg l) as L.
  rewrite zlen_cons, (Z.pow_add_r 256 1 (zlen l)) by lia. change (256 ^ 1) with 256. nia.
Qed.
Lemma twos_bound l : octet_string l -> Z.abs (twos_value l) < 256 ^ zlen l \/ l = [].
Proof.
  intros O. destruct l as [|b r]; [right; reflexivity|left]. pose proof (be_value_bound _ O) as B. unfold twos_value. destruct (b <? 128) eqn:E; [lia|].
  change (Z.of_nat (length (b :: r))) with (zlen (b :: r)) in *. inversion O; subst. enough (0 < be_value (b :: r)) by lia. cbn [be_value].
  assert (0 <= be_value r) by (apply be_value_bound; assumption). apply Z.ltb_ge in E. assert (0 < 256 ^ Z.of_nat (length r)) by (apply Z.pow_pos_nonneg; lia). nia.
Qed.
Lemma pow256_mono a b : 0 <= a <= b -> 256 ^ a <= 256 ^ b. Proof. intros. apply Z.pow_le_mono_r; lia. Qed.
Lemma integer_bound k l z : octet_string l -> zlen l <= k -> integer_decodeContents l = Ok z -> Z.abs z < 256 ^ k /\ 1 <= zlen l.
Proof.
  intros O K E. destruct l as [|b r]; [discriminate E|]. rewrite integer_decode_spec in E by (assumption || discriminate). injection E as <-.
  destruct (twos_bound _ O) as [B|B]; [|discriminate B]. pose proof (zlen_nonneg r) as R. assert (L := zlen_cons b r). assert (M := pow256_mono (zlen (b :: r)) k ltac:(lia)). split; [eapply Z.lt_le_trans; eassumption|lia].
Qed.
Lemma counter_bound k l z : octet_string l -> zlen l <= k -> 4 <= k -> counter_decodeContents l = Ok z -> Z.abs z < 256 ^ k /\ 1 <= zlen l.
Proof.
  intros O K K4 E. unfold counter_decodeContents in E. destruct (integer_decodeContents l) as [v|] eqn:I; [|discriminate]. destruct (integer_bound k l v O K I) as [B L]. cbn [bind] in E.
  destruct (v <? 0) eqn:V; injection E as <-; split; try lia. assert (H := pow256_mono 4 k ltac:(lia)). change (256 ^ 4) with 0x100000000 in H. lia.
Qed.
Lemma pow128_mono a b : 0 <= a <= b -> 128 ^ a <= 128 ^ b. Proof. intros. apply Z.pow_le_mono_r; lia. Qed.

Lemma oid_group_bound k : forall l v n x r, octet_string l -> 0 <= v < 128 ^ n -> 1 <= n -> n + zlen l <= k -> oid_group_loop v l = Ok (x, r) ->
  0 <= x < 128 ^ k /\ octet_string r /\ 1 + zlen r <= zlen l.
Proof.
  induction l as [|b l IH]; intros v n x r O V N K E; [discriminate E|]. cbn [oid_group_loop] in E. inversion O as [|? ? Hb O']; subst.
  change (Z.land b 0x7f) with (Z.land b 127) in E. rewrite land_127, lor_shiftl_7 in E by (apply Z.mod_pos_bound; lia).
  assert (M := Z.mod_pos_bound b 128 ltac:(lia)). rewrite zlen_cons in *. pose proof (zlen_nonneg l) as L.
  assert (P : 128 ^ (n + 1) = 128 ^ n * 128) by (rewrite Z.pow_add_r by lia; reflexivity).
  assert (V' : 0 <= v * 128 + b mod 128 < 128 ^ (n + 1)) by nia.
  destruct (Z.land b 128 =? 128).
  - destruct (IH _ (n + 1) _ _ O' V' ltac:(lia) ltac:(lia) E) as (A & B & C). split; [exact A|]. split; [exact B|lia].
  - injection E as <- <-. split; [|split; [exact O'|lia]]. assert (Q := pow128_mono (n + 1) k ltac:(lia)). lia.
Qed.
Lemma oid_loop_bound k fuel : forall l rest, octet_string l -> 1 <= k -> zlen l <= k -> oid_loop fuel l = Ok rest -> Forall (fun x => 0 <= x < 128 ^ k) rest /\ zlen rest <= zlen l.
Proof.
  induction fuel as [|fuel IH]; intros l rest O K1 K E.
  - destruct l; [|discriminate E]. injection E as <-. split; [constructor|lia].
  - destruct l as [|b l]; [injection E as <-; split; [constructor|lia]|]. cbn [oid_loop] in E. inversion O as [|? ? Hb O']; subst. rewrite zlen_cons in *. pose proof (zlen_nonneg l) as L.
    change (Z.land b 0x80) with (Z.land b 128) in E. change (Z.land b 0x7f) with (Z.land b 127) in E. rewrite land_127 in E. rewrite (land_128_octet b Hb) in E.
    destruct (b <? 128) eqn:B; cbn [Z.eqb] in E.
    + cbv iota in E. destruct (oid_loop fuel l) as [r|] eqn:E1; [|discriminate E]. injection E as <-.
      destruct (IH l r O' K1 ltac:(lia) E1) as [A C]. split; [|rewrite zlen_cons; lia]. constructor; [|exact A].
      assert (Q := pow128_mono 1 k ltac:(lia)). change (128 ^ 1) with 128 in Q. lia.
    + try rewrite Z.eqb_refl in E. cbv iota in E. destruct (oid_group_loop (b mod 128) l) as [[x r']|] eqn:G; [|discriminate E]. cbn [bind] in E. destruct (oid_loop fuel r') as [r|] eqn:E1; [|discriminate E]. injection E as <-.
      assert (M := Z.mod_pos_bound b 128 ltac:(lia)).
      destruct (oid_group_bound k l _ 1 x r' O' M ltac:(lia) ltac:(lia) G) as (A & O2 & C). destruct (IH r' r O2 K1 ltac:(lia) E1) as [A2 C2].
      split; [constructor; assumption|rewrite zlen_cons; lia].
Qed.
Lemma oid_bound k l rest : octet_string l -> 1 <= k -> zlen l <= k -> oid_decodeContents l = Ok rest -> Forall (fun x => 0 <= x < 128 ^ k) rest /\ zlen rest <= 1 + zlen l.
Proof.
  intros O K1 K E. destruct l as [|b l]; [discriminate E|]. cbn [oid_decodeContents] in E. inversion O as [|? ? Hb O']; subst. rewrite zlen_cons in *. pose proof (zlen_nonneg l) as L.
  destruct (b <? 128) eqn:B; [|discriminate E]. destruct (oid_loop (length l) l) as [r|] eqn:E1; [|discriminate E]. injection E as <-.
  destruct (oid_loop_bound k _ l r O' K1 ltac:(lia) E1) as [A C]. assert (Q := pow128_mono 1 k ltac:(lia)). change (128 ^ 1) with 128 in Q. apply Z.ltb_lt in B.
  assert (M := Z.mod_pos_bound b 40 ltac:(lia)). assert (D : 0 <= b / 40 < 128) by (split; [apply Z.div_pos; lia|apply Z.div_lt_upper_bound; lia]).
  split; [|rewrite !zlen_cons; lia]. constructor; [lia|]. constructor; [lia|exact A].
Qed.

(** ** Headers *)
Lemma tag_loop_rest : forall l t x r, decodeTag_loop t l = Ok (x, r) -> exists p, l = p ++ r /\ p <> [].
Proof.
  induction l as [|b l IH]; intros t x r E; [discriminate E|]. cbn [decodeTag_loop] in E.
  destruct (_ =? _); [injection E as <- <-; exists [b]; split; [reflexivity|discriminate]|].
  destruct (IH _ _ _ E) as (p & -> & _). exists (b :: p). split; [reflexivity|discriminate].
Qed.
Lemma tag_rest l x r : decodeTag l = Ok (x, r) -> exists p, l = p ++ r /\ p <> [].
Proof.
  destruct l as [|b l]; [discriminate|]. cbn [decodeTag]. destruct (_ =? _).
  - intros E. destruct (tag_loop_rest _ _ _ _ E) as (p & -> & _). exists (b :: p). split; [reflexivity|discriminate].
  - intros E. injection E as <- <-. exists [b]. split; [reflexivity|discriminate].
Qed.
Lemma length_loop_rest n : forall v l x r, decodeLength_loop n v l = Ok (x, r) -> exists p, l = p ++ r.
Proof.
  induction n as [|n IH]; intros v l x r E; cbn [decodeLength_loop] in E; [injection E as <- <-; exists []; reflexivity|].
  destruct l as [|b l]; [discriminate|]. destruct (IH _ _ _ _ E) as [p ->]. exists (b :: p). reflexivity.
Qed.
Lemma length_rest l x r : decodeLength l = Ok (x, r) -> exists p, l = p ++ r /\ p <> [].
Proof.
  destruct l as [|b l]; [discriminate|]. cbn [decodeLength]. destruct (negb _).
  - intros E. destruct (length_loop_rest _ _ _ _ _ E) as [p ->]. exists (b :: p). split; [reflexivity|discriminate].
  - intros E. injection E as <- <-. exists [b]. split; [reflexivity|discriminate].
Qed.
Lemma octet_rest p r : octet_string (p ++ r) -> octet_string p /\ octet_string r. Proof. apply Forall_app. Qed.
Lemma nonempty_len {A} (p : list A) : p <> [] -> 1 <= zlen p.
Proof. destruct p; [contradiction|]. rewrite zlen_cons. pose proof (zlen_nonneg p). lia. Qed.

(** ** decode *)
Definition bounded (k : Z) (s : str) (l : list val) : Prop := sum weight l <= zlen s /\ Forall (fine k) l.
Lemma contents_bound k dec c s v : 4 <= k -> octet_string s -> zlen s <= k ->
  (forall l, dec s = Ok l -> bounded k s l) -> decodeContents dec c s = Ok v -> weight v <= 2 + zlen s /\ fine k v.
Proof.
  intros K4 O K D E. unfold decodeContents in E.
  assert (IC : forall z, v = VInt c z -> Z.abs z < 256 ^ k -> 1 <= zlen s -> weight v <= 2 + zlen s /\ fine k v).
  { intros z -> B L. split; [change (weight (VInt c z)) with 3; lia|split; [split; [reflexivity|discriminate]|exact B]]. }
  assert (OC : v = VOct c (VPyStr s) -> weight v <= 2 + zlen s /\ fine k v).
  { intros ->. split; [unfold weight; cbn [objects characters components integers]; lia|split; [split; [reflexivity|discriminate]|exact Logic.I]]. }
  destruct (decode_method c) as [[]|]; try discriminate E.
  - destruct (integer_decodeContents s) as [z|] eqn:I; [|discriminate E]. injection E as <-. destruct (integer_bound k s z O K I). eapply IC; eauto.
  - apply OC. injection E as <-. reflexivity.
  - destruct (oid_decodeContents s) as [l|] eqn:I; [|discriminate E]. injection E as <-. destruct (oid_bound k s l O ltac:(lia) K I) as [A B].
    split; [unfold weight; cbn [objects characters components integers]; pose proof (zlen_nonneg s); lia|split; [split; [reflexivity|discriminate]|exact A]].
  - destruct (null_decodeContents s); [|discriminate E]. injection E as <-. split; [change (weight (VNull c)) with 2; pose proof (zlen_nonneg s); lia|split; [split; [reflexivity|discriminate]|exact Logic.I]].
  - destruct (dec s) as [l|]; [|discriminate E]. injection E as <-. destruct (D l eq_refl) as [A B]. rewrite weight_seq. split; [lia|].
    destruct (Forall_fine_nolist _ _ B) as [B1 B2]. split; [split; [exact B1|discriminate]|apply small_seq; exact B2].
  - apply OC. injection E as <-. reflexivity.
  - destruct (counter_decodeContents s) as [z|] eqn:I; [|discriminate E]. injection E as <-. destruct (counter_bound k s z O K K4 I). eapply IC; eauto.
  - destruct (dec s) as [l|]; [|discriminate E]. cbn [bind] in E. destruct (D l eq_refl) as [A B]. destruct (pdu_bound k c l v B (or_introl E)) as [A' B']. split; [lia|exact B'].
  - destruct (dec s) as [l|]; [|discriminate E]. cbn [bind] in E. destruct (D l eq_refl) as [A B]. destruct (trap_bound k l v B E) as [A' B']. split; [lia|exact B'].
  - destruct (dec s) as [l|]; [|discriminate E]. cbn [bind] in E. destruct (D l eq_refl) as [A B]. destruct (pdu_bound k c l v B (or_intror E)) as [A' B']. split; [lia|exact B'].
Qed.
Lemma one_bound k reg dec s v rest : 4 <= k -> octet_string s -> zlen s <= k + 2 ->
  (forall s' l, octet_string s' -> zlen s' <= k -> dec s' = Ok l -> bounded k s' l) -> decode_one reg dec s = Ok (v, rest) ->
  octet_string rest /\ weight v + zlen rest <= zlen s /\ fine k v.
Proof.
  intros K4 O K D E. unfold decode_one in E. destruct (decodeTag s) as [[t s1]|] eqn:T; [|discriminate E]. cbn [bind] in E. destruct (tag_rest _ _ _ T) as (p & -> & Np).
  destruct (decodeLength s1) as [[n s2]|] eqn:Le; [|discriminate E]. cbn [bind] in E. destruct (length_rest _ _ _ Le) as (q & -> & Nq).
  destruct (reg_get reg t) as [c|]; [|discriminate E]. destruct (decodeContents dec c (ztake n s2)) as [o|] eqn:C; [|discriminate E]. injection E as <- <-.
  apply octet_rest in O as [_ O]. apply octet_rest in O as [_ O]. rewrite !zlen_app in *. apply nonempty_len in Np, Nq.
  assert (S := ztake_zdrop n s2). assert (L : zlen s2 = zlen (ztake n s2) + zlen (zdrop n s2)) by (rewrite <- zlen_app, S; reflexivity).
  rewrite <- S in O. apply octet_rest in O as [O1 O2]. pose proof (zlen_nonneg (zdrop n s2)) as Z0.
  destruct (contents_bound k dec c (ztake n s2) o K4 O1 ltac:(lia)) as [A B]; [intros l; apply D; [exact O1|lia]|exact C|]. split; [exact O2|]. split; [lia|exact B].
Qed.
Lemma loop_bound k reg dec : 4 <= k -> (forall s' l, octet_string s' -> zlen s' <= k -> dec s' = Ok l -> bounded k s' l) ->
  forall fuel s l, octet_string s -> zlen s <= k + 2 -> decode_loop reg dec fuel s = Ok l -> bounded k s l.
Proof.
  intros K4 D. induction fuel as [|fuel IH]; intros s l O K E.
  - destruct s; [|discriminate E]. injection E as <-. split; [cbn; lia|constructor].
  - destruct s as [|b s]; [injection E as <-; split; [cbn; lia|constructor]|]. cbn [decode_loop] in E.
    destruct (decode_one reg dec (b :: s)) as [[v rest]|] eqn:E1; [|discriminate E]. cbn [bind] in E. destruct (decode_loop reg dec fuel rest) as [os|] eqn:E2; [|discriminate E]. injection E as <-.
    destruct (one_bound k reg dec _ v rest K4 O K D E1) as (O2 & A & B). pose proof (weight_nonneg v).
    destruct (IH rest os O2 ltac:(lia) E2) as [A' B']. split; [rewrite sum_cons; lia|constructor; assumption].
Qed.
Lemma decode_bound k reg : 4 <= k -> forall depth s l, octet_string s -> zlen s <= k + 2 -> decode reg depth s = Ok l -> bounded k s l.
Proof.
  intros K4. induction depth as [|depth IH]; intros s l O K E; [discriminate E|]. cbn [decode] in E. eapply loop_bound; try eassumption.
  intros s' l' O' K' E'. apply (IH s' l' O'); [lia|exact E'].
Qed.
Lemma part_small k w v : part w v -> small k v -> small k w.
Proof.
  induction 1 as [|c l x I0 _ IH]; [auto|]. intros S. apply small_seq in S. rewrite Forall_forall in S. auto.
Qed.
Lemma message_bound k reg depth c s m : 4 <= k -> octet_string s -> zlen s <= k + 2 -> message_decode reg depth c (DStr s) = Ok m ->
  2 + (weight (m_version m) + weight (m_community m) + weight (m_data m)) <= zlen s /\ small k (m_version m) /\ small k (m_community m) /\ small k (m_data m).
Proof.
  intros K4 O K E. unfold message_decode in E. destruct (decode_data reg depth (DStr s)) as [l|] eqn:D; [|discriminate E]. cbn [decode_data] in D. cbn [bind] in E.
  destruct (decode_bound k reg K4 depth s l O K D) as [A B]. destruct l as [|o [|? ?]]; try discriminate E. inversion B as [|? ? ((N & C) & S) _]; subst.
  unfold sum in A. cbn [fold_right] in A.
  destruct (py_len o) as [n|] eqn:L; [|discriminate E]. cbn [bind] in E. destruct (negb (n =? 3)) eqn:N3; [discriminate E|]. apply negb_false_iff, Z.eqb_eq in N3. subst n.
  destruct o as [| | | | | |[l|]| |c' l]; try discriminate L; try (elim C; reflexivity).
  - cbn in L. injection L as L. destruct l as [|a [|b [|d [|? ?]]]]; try (rewrite ?zlen_cons in L; pose proof (zlen_nonneg l); cbn in L; lia); try discriminate L.
    + cbn in E. injection E as <-. cbn [m_version m_community m_data]. cbn in A. cbn. pose proof (zlen_nonneg s). repeat split; lia.
    + exfalso. rewrite !zlen_cons in L. pose proof (zlen_nonneg l). lia.
  - cbn in L. injection L as L. destruct l as [|a [|b [|d [|? ?]]]]; try discriminate L.
    + cbn in E. injection E as <-. cbn [m_version m_community m_data]. rewrite weight_seq, !sum_cons in A. change (sum weight []) with 0 in A. split; [lia|].
      apply small_seq in S. inversion S as [|? ? S0 S']; subst. inversion S' as [|? ? S1 S'']; subst. inversion S'' as [|? ? S2 _]; subst. auto.
    + exfalso. rewrite !zlen_cons in L. pose proof (zlen_nonneg l). lia.
Qed.

(** ** Decimal digits *)
Lemma dec_digits_len fuel : forall n acc k, 0 <= n < 10 ^ k -> 1 <= k -> zlen (dec_digits fuel n acc) <= zlen acc + k.
Proof.
  induction fuel as [|fuel IH]; intros n acc k N K; cbn [dec_digits]; [lia|]. destruct (n <? 10) eqn:E; [rewrite zlen_cons; lia|]. apply Z.ltb_ge in E.
  destruct (Z.eq_dec k 1) as [-> |K1]; [change (10 ^ 1) with 10 in N; lia|].
  assert (P : 10 ^ k = 10 * 10 ^ (k - 1)) by (replace k with (1 + (k - 1)) at 1 by lia; rewrite Z.pow_add_r by lia; reflexivity).
  assert (B : 0 <= n / 10 < 10 ^ (k - 1)) by (split; [apply Z.div_pos; lia|apply Z.div_lt_upper_bound; lia]).
  assert (Q := IH (n / 10) ((48 + n mod 10) :: acc) (k - 1) B ltac:(lia)). rewrite zlen_cons in Q. lia.
Qed.
Lemma str_len z k : Z.abs z < 10 ^ k -> 1 <= k -> zlen (py_str_of_int z) <= (if z <? 0 then 1 else 0) + k.
Proof.
  intros B K. unfold py_str_of_int. destruct (z <? 0) eqn:E.
  - apply Z.ltb_lt in E. unfold py_str_of_nat. rewrite zlen_cons. assert (Q := dec_digits_len (S (Z.to_nat (Z.log2 (- z)))) (- z) [] k ltac:(lia) K). change (zlen (@nil Z)) with 0 in Q. lia.
  - apply Z.ltb_ge in E. unfold py_str_of_nat. assert (Q := dec_digits_len (S (Z.to_nat (Z.log2 z))) z [] k ltac:(lia) K). change (zlen (@nil Z)) with 0 in Q. lia.
Qed.
Lemma decimal_len z d n : 0 <= z < 10 ^ n -> 1 <= n -> decimal z d -> zlen d <= n.
Proof.
  intros Hz N D. apply decimal_iff in D. subst d. assert (Q := str_len z n). destruct (Z.ltb_spec z 0); [lia|]. rewrite Z.abs_eq in Q by lia. specialize (Q ltac:(lia) ltac:(lia)). lia.
Qed.
(** Powers of 5 and of 2 (small numbers only are computed: the kernel's other checker has no fast arithmetic). *)
Lemma pow_mul_le a b m x y : 0 <= a -> 0 <= x -> 0 <= m -> a <= b -> x <= y -> a ^ m * x <= b ^ m * y.
Proof. intros. apply Z.mul_le_mono_nonneg; [apply Z.pow_nonneg; assumption|apply Z.pow_le_mono_l; auto|assumption|assumption]. Qed.
Lemma five_below : 2 ^ 9980 <= 5 ^ 4300.
Proof.
  apply Z.le_trans with ((2 ^ 65) ^ 153 * 2 ^ 37).
  - rewrite <- Z.pow_mul_r, <- Z.pow_add_r by discriminate. apply Z.pow_le_mono_r; [reflexivity|discriminate].
  - change 4300 with (28 * 153 + 16). rewrite (Z.pow_add_r 5), (Z.pow_mul_r 5) by discriminate. refine (pow_mul_le (2 ^ 65) (5 ^ 28) 153 (2 ^ 37) (5 ^ 16) _ _ _ _ _); apply Z.leb_le; vm_compute; reflexivity.
Qed.
Lemma five_above : 5 ^ 4300 <= 2 ^ 9986.
Proof.
  apply Z.le_trans with ((2 ^ 137) ^ 72 * 2 ^ 121).
  - change 4300 with (59 * 72 + 52). rewrite (Z.pow_add_r 5), (Z.pow_mul_r 5) by discriminate. refine (pow_mul_le (5 ^ 59) (2 ^ 137) 72 (5 ^ 52) (2 ^ 121) _ _ _ _ _); apply Z.leb_le; vm_compute; reflexivity.
  - rewrite <- Z.pow_mul_r, <- Z.pow_add_r by discriminate. apply Z.pow_le_mono_r; [reflexivity|discriminate].
Qed.
Lemma limit256 : 256 ^ 1785 <= 10 ^ 4300.
Proof.
  change 256 with (2 ^ 8). rewrite <- (Z.pow_mul_r 2 8 1785) by discriminate. change (8 * 1785) with (9980 + 4300). rewrite Z.pow_add_r by discriminate.
  change 10 with (5 * 2). rewrite Z.pow_mul_l. apply Z.mul_le_mono_nonneg_r; [apply Z.pow_nonneg; discriminate|exact five_below].
Qed.
Lemma limit10 : 10 ^ 4300 <= 64 * 256 ^ 1785.
Proof.
  change 256 with (2 ^ 8). rewrite <- (Z.pow_mul_r 2 8 1785) by discriminate. change 64 with (2 ^ 6). rewrite <- (Z.pow_add_r 2) by discriminate. change (6 + 8 * 1785) with (9986 + 4300).
  rewrite Z.pow_add_r by discriminate. change 10 with (5 * 2). rewrite Z.pow_mul_l. apply Z.mul_le_mono_nonneg_r; [apply Z.pow_nonneg; discriminate|exact five_above].
Qed.
Lemma limit128 : 128 ^ 1785 <= 10 ^ 4300.
Proof. apply Z.le_trans with (256 ^ 1785); [apply Z.pow_le_mono_l; split; discriminate|exact limit256]. Qed.
Lemma below256 x k : 0 <= x -> 0 <= k <= 1785 -> x < 256 ^ k -> 0 <= x < 10 ^ 4300.
Proof.
  intros X K B. split; [exact X|]. eapply Z.lt_le_trans; [exact B|]. eapply Z.le_trans; [apply pow256_mono|exact limit256]. exact K.
Qed.
Lemma below128 x k : 0 <= k <= 1785 -> 0 <= x < 128 ^ k -> 0 <= x < 10 ^ 4300.
Proof.
  intros K [X B]. split; [exact X|]. eapply Z.lt_le_trans; [exact B|]. eapply Z.le_trans; [apply pow128_mono|exact limit128]. exact K.
Qed.

Lemma decimal_long z d n : 10 ^ n <= z -> 0 <= n -> decimal z d -> n < zlen d.
Proof.
  intros Hz N D. destruct (Z_lt_le_dec n (zlen d)) as [L|L]; [exact L|exfalso]. assert (P : 0 < 10 ^ n) by (apply Z.pow_pos_nonneg; lia). destruct D as (e & E & H & V & ->).
  destruct (Z.ltb_spec z 0); [lia|]. rewrite Z.abs_eq in V by lia. destruct (Z.eq_dec (hd 0 e) 48) as [X|X].
  - rewrite (H X) in V. change (digits_value [48]) with 0 in V. lia.
  - pose proof (digits_value_pos e E X). assert (10 ^ zlen e <= 10 ^ n) by (apply Z.pow_le_mono_r; lia). lia.
Qed.
(** A big integer. *)
Lemma big_integer n : 1785 = Z.of_nat n -> let s := 2 :: 130 :: 6 :: 250 :: 127 :: repeat 255 n in
  octet_string s /\ zlen s = 1790 /\ exists z, 64 * 256 ^ 1785 <= z /\ forall cfg depth, exists c, decode (reg_of cfg) (S depth) s = Ok [VInt c z].
Proof.
  intros Hn. cbn zeta. assert (Or : octet_string (127 :: repeat 255 n)) by (constructor; [lia|]; apply Forall_forall; intros x Hx; apply repeat_spec in Hx; lia).
  assert (Lr : zlen (127 :: repeat 255 n) = 1786) by (unfold zlen; cbn [length]; rewrite repeat_length; lia).
  split; [|split].
  - do 4 (constructor; [lia|]). exact Or.
  - unfold zlen in *. cbn [length] in *. lia.
  - exists (twos_value (127 :: repeat 255 n)). split.
    + cbn [twos_value]. change (127 <? 128) with true. cbv iota. cbn [be_value]. rewrite repeat_length, <- Hn. inversion Or as [|? ? _ O2]; subst. pose proof (be_value_bound _ O2) as [B _].
      rewrite Z.sub_0_r. apply Z.le_trans with (127 * 256 ^ 1785); [|rewrite <- (Z.add_0_r (127 * 256 ^ 1785)) at 1; apply Z.add_le_mono_l; exact B].
      apply Z.mul_le_mono_nonneg_r; [apply Z.pow_nonneg; discriminate|discriminate].
    + intros cfg depth. assert (T : tlv_octets 2 (127 :: repeat 255 n) (2 :: 130 :: 6 :: 250 :: 127 :: repeat 255 n)).
      { exists [130; 6; 250]. split; [|reflexivity]. right. exists [6; 250]. split; [reflexivity|]. split; [cbn; lia|]. split; [repeat constructor; lia|]. unfold zlen in Lr. rewrite Lr. reflexivity. }
      assert (D := decode_one_octets 2 _ _ ltac:(discriminate) T (reg_of cfg) (decode (reg_of cfg) depth) []). rewrite app_nil_r in D.
      destruct (reg_get (reg_of cfg) 2) as [c|] eqn:G; [|destruct cfg; discriminate G]. exists c.
      assert (M : decode_method c = Some DInteger) by (destruct cfg; injection G as <-; reflexivity).
      unfold decodeContents in D. rewrite M, integer_decode_spec in D by (assumption || discriminate). cbn [bind] in D. apply decode_single; [discriminate|exact D].
Qed.
