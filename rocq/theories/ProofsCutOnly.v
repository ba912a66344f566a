(** * A beginning of an encoding that is read is one of the cuts of SpecCut. *)
From Coq Require Import ZArith List Bool Lia ZifyBool ZifyNat.
From Verif Require Import PyBase Classes Values Codec SpecBER SpecSMI SpecTree SpecWire SpecMsg SpecCut Bits ProofsInt ProofsOid ProofsScalar ProofsText ProofsTree ProofsDecode ProofsWire ProofsCut.
Import ListNotations.
Open Scope Z_scope.

(** ** Identifiers *)
Lemma group_tail p x : b128_group (p ++ x) -> x <> [] -> Forall (fun b => 128 <= b < 256) p.
Proof.
  revert x. induction p as [|b p IH]; intros x G N; [constructor|]. cbn [app] in G. inversion G as [? H E|? ? H G' E]; subst.
  - symmetry in H1 || idtac. destruct p; [destruct x; [contradiction N; reflexivity|discriminate]|discriminate].
  - constructor; [exact H|]. eapply IH; eassumption.
Qed.
Lemma pre_split gs : Forall b128_group gs -> forall p rest, concat gs = p ++ rest ->
  exists gs1 gs2 t, gs = gs1 ++ gs2 /\ p = concat gs1 ++ t /\ Forall (fun b => 128 <= b < 256) t.
Proof.
  induction 1 as [|g gs Hg _ IH]; intros p rest E.
  - symmetry in E. apply app_eq_nil in E as [-> _]. exists [], [], []. repeat split; constructor.
  - cbn [concat] in E. apply app_eq_app in E as (l & [[E1 E2]|[E1 E2]]).
    + destruct l as [|b l].
      * rewrite app_nil_r in E1. subst p. exists [g], gs, []. cbn [concat]. rewrite !app_nil_r. repeat split; constructor.
      * exists [], (g :: gs), p. repeat split. eapply group_tail; [rewrite <- E1; exact Hg|discriminate].
    + destruct (IH l rest E2) as (g1 & g2 & t & -> & -> & T). exists (g :: g1), g2, t. cbn [concat app]. rewrite E1, app_assoc. auto.
Qed.
Lemma oid_prefix strict l p rest l2 : oid_contents strict l (p ++ rest) -> oid_decodeContents p = Ok l2 -> exists l', oid_contents strict l' p.
Proof.
  intros O D. destruct l as [|a [|b ids]]; try contradiction. destruct O as (g & gs & E & G & M & V & F). unfold oid_decodeContents in D. destruct p as [|b0 r]; [discriminate|]. destruct (Z.ltb_spec b0 128); [|discriminate].
  destruct G as [x Hx|x y Hx Hy]; cbn [app] in E; injection E as <- E; [|lia].
  assert (Fg : Forall b128_group gs) by (clear -F; induction F as [|? ? ? ? (H & _) _ IH]; constructor; auto).
  destruct (pre_split gs Fg r rest) as (g1 & g2 & t & -> & -> & T); [symmetry; exact E|]. apply Forall_app in Fg as [Fg _]. rewrite oid_loop_spec in D by auto. destruct t; [|discriminate]. rewrite app_nil_r.
  apply Forall2_app_inv_l in F as (i1 & i2 & F1 & _ & ->). exists (a :: b :: i1), [b0], g1. repeat split; auto. constructor; lia.
Qed.
(** ** Headers *)
Lemma decodeLength_head k r : 0 <= k < 128 -> decodeLength ((128 + k) :: r) = decodeLength_loop (Z.to_nat k) 0 r.
Proof.
  intros H. unfold decodeLength. rewrite land_128_octet by lia. destruct (Z.ltb_spec (128 + k) 128); [lia|]. cbn [Z.eqb negb]. rewrite land_127. replace ((128 + k) mod 128) with k by lia. reflexivity.
Qed.
Lemma length_loop_short l : forall n acc, (length l < n)%nat -> decodeLength_loop n acc l = Err IndexError.
Proof. induction l as [|b l IH]; intros [|n] acc H; cbn in H; try lia; [reflexivity|]. cbn [decodeLength_loop]. apply IH. lia. Qed.
Lemma length_cut n L1 L2 : ber_length n (L1 ++ L2) -> L2 <> [] -> decodeLength L1 = Err IndexError.
Proof.
  intros B N. destruct L1 as [|b L1]; [reflexivity|]. destruct B as [[E Hn]|(ds & E & Hl & Ho & Hv)]; cbn [app] in E.
  - injection E as _ E. apply app_eq_nil in E as [_ E]. contradiction.
  - pose proof (f_equal (hd 0) E) as Eb. pose proof (f_equal (@tl Z) E) as Et. cbn [hd tl] in Eb, Et. subst b ds. rewrite decodeLength_head by lia. apply length_loop_short. rewrite Nat2Z.id, app_length. destruct L2; [contradiction N; reflexivity|cbn; lia].
Qed.
(** Where a beginning of an encoding stops: in the header, or in the contents. *)
Lemma header_cut tag L c p rest n reg dec o : Z.land tag 31 <> 31 -> ber_length n L -> n = Z.of_nat (length c) -> tag :: L ++ c = p ++ rest -> rest <> [] -> decode_one reg dec p = Ok o ->
  exists d c1 w, p = tag :: L ++ c1 /\ c = c1 ++ rest /\ reg_get reg tag = Some d /\ decodeContents dec d c1 = Ok w.
Proof.
  intros Ht B -> E N D. destruct p as [|b p]; [discriminate D|]. cbn [app] in E. injection E as <- E.
  apply app_eq_app in E as (x & [[E1 E2]|[E1 E2]]).
  - destruct x as [|y x].
    + rewrite app_nil_r in E1. subst p. cbn [app] in E2. subst rest. rewrite <- (app_nil_r L) in D. rewrite (decode_one_over tag [] (Z.of_nat (length c)) L Ht ltac:(unfold zlen; cbn; lia) B) in D.
      destruct (reg_get reg tag) as [d|]; [|discriminate]. destruct (decodeContents dec d []) as [w|] eqn:X; [|discriminate]. exists d, [], w. rewrite app_nil_r. auto.
    + unfold decode_one in D. rewrite decodeTag_single in D by exact Ht. cbn [bind] in D. rewrite E1 in B. rewrite (length_cut _ _ _ B ltac:(discriminate)) in D. discriminate.
  - subst p c. rewrite (decode_one_over tag x _ L Ht (zlen_prefix x rest) B) in D. destruct (reg_get reg tag) as [d|]; [|discriminate]. destruct (decodeContents dec d x) as [w|] eqn:X; [|discriminate]. exists d, x, w. auto.
Qed.
Lemma whole_one tag L c y n reg dec w r : Z.land tag 31 <> 31 -> ber_length n L -> n = Z.of_nat (length c) -> decode_one reg dec ((tag :: L ++ c) ++ y) = Ok (w, r) -> r = y.
Proof.
  intros Ht B -> D. unfold decode_one in D. cbn [app] in D. rewrite decodeTag_single in D by exact Ht. cbn [bind] in D. rewrite <- app_assoc, (ber_length_decode _ _ _ B) in D. cbn [bind] in D.
  change (Z.of_nat (length c)) with (zlen c) in D. rewrite ztake_app, zdrop_app in D. destruct (reg_get reg tag) as [d|]; [|discriminate]. destruct (decodeContents dec d c); [|discriminate]. injection D as _ <-. reflexivity.
Qed.
(** ** Contents *)
Ltac classes Rg := match type of Rg with reg_get (reg_of ?cfg) _ = Some ?d => destruct cfg; vm_compute in Rg; try discriminate Rg; injection Rg as <- end.
Lemma int_nothing cfg k d dec w : int_kind k = true -> reg_get (reg_of cfg) (kind_octet k) = Some d -> decodeContents dec d [] = Ok w -> False.
Proof. intros K Rg D. destruct k; try discriminate K; classes Rg; discriminate D. Qed.
Lemma oid_something cfg d dec c w : reg_get (reg_of cfg) 6 = Some d -> decodeContents dec d c = Ok w -> exists l, oid_decodeContents c = Ok l.
Proof. intros Rg D. classes Rg; unfold decodeContents in D; cbn in D; destruct (oid_decodeContents c); try discriminate D; eauto. Qed.
Lemma seq_something cfg k d dec c w : seq_kind k = true -> reg_get (reg_of cfg) (kind_octet k) = Some d -> decodeContents dec d c = Ok w -> exists ws, dec c = Ok ws.
Proof. intros K Rg D. destruct (dec c) as [ws|e] eqn:X; [eauto|]. exfalso. destruct k; try discriminate K; classes Rg; unfold decodeContents in D; cbn in D; rewrite X in D; discriminate D. Qed.
Lemma decode_step reg d b s ws : decode reg (S d) (b :: s) = Ok ws -> exists w r ws', decode_one reg (decode reg d) (b :: s) = Ok (w, r) /\ decode reg (S d) r = Ok ws' /\ ws = w :: ws'.
Proof.
  intros D. destruct (decode_one reg (decode reg d) (b :: s)) as [[w r]|e] eqn:E.
  - rewrite (decode_cons _ _ _ _ _ E) in D. destruct (decode reg (S d) r) as [ws'|] eqn:E2; [|discriminate]. injection D as <-. eauto 7.
  - cbn [decode length decode_loop] in D. rewrite E in D. discriminate.
Qed.
(** ** All of it *)
Definition only_cuts (strict : bool) (t : tree) (os : list Z) : Prop := forall cfg d p rest o, os = p ++ rest -> rest <> [] -> decode_one (reg_of cfg) (decode (reg_of cfg) d) p = Ok o -> exists t', cut strict t os t' p.
Definition only_cuts_list (strict : bool) (ts : list tree) (a : list Z) : Prop := forall cfg d p rest ws, a = p ++ rest -> decode (reg_of cfg) d p = Ok ws ->
  (exists t1 t2, ts = t1 ++ t2 /\ wires strict t1 p /\ wires strict t2 rest) \/
  (exists t1 t t' t2 a1 b b' c, ts = t1 ++ t :: t2 /\ wires strict t1 a1 /\ cut strict t b t' b' /\ wires strict t2 c /\ a = a1 ++ b ++ c /\ p = a1 ++ b').
Lemma wire_header strict t os : wire strict t os -> exists tag L c, os = tag :: L ++ c /\ Z.land tag 31 <> 31 /\ ber_length (Z.of_nat (length c)) L.
Proof.
  intros W. inversion W as [k c ? I O N S (L & B & E)|k s ? I (L & B & E)|l c ? O (L & B & E)|k ? I (L & B & E)|k ts c ? I Ws (L & B & E)]; subst; eexists _, L, _; (split; [reflexivity|]); (split; [try apply kind_octet_low|exact B]).
  discriminate.
Qed.
Lemma all_cuts strict t os : wire strict t os -> only_cuts strict t os.
Proof.
  apply (wire_mut strict (only_cuts strict) (only_cuts_list strict)); clear.
  - intros k c os I O N S (L & B & ->) cfg d p rest o E Nr D. destruct (header_cut _ _ _ _ _ _ _ _ _ (kind_octet_low k) B eq_refl E Nr D) as (dc & c1 & w & -> & -> & Rg & Dc).
    destruct c1 as [|b c1]; [destruct (int_nothing _ _ _ _ _ I Rg Dc)|]. eexists. apply cut_int; auto. discriminate.
  - intros k s os I (L & B & ->) cfg d p rest o E Nr D. destruct (header_cut _ _ _ _ _ _ _ _ _ (kind_octet_low k) B eq_refl E Nr D) as (dc & c1 & w & -> & -> & Rg & Dc). eexists. apply cut_oct; auto.
  - intros l c os O (L & B & ->) cfg d p rest o E Nr D. destruct (header_cut 6 _ _ _ _ _ _ _ _ ltac:(discriminate) B eq_refl E Nr D) as (dc & c1 & w & -> & -> & Rg & Dc).
    destruct (oid_something _ _ _ _ _ Rg Dc) as (l2 & D2). destruct (oid_prefix _ _ _ _ _ O D2) as (l' & O'). exists (TOid l'). apply cut_oid; auto.
  - intros k os I (L & B & ->) cfg d p rest o E Nr D. destruct (header_cut _ _ _ _ _ _ _ _ _ (kind_octet_low k) B eq_refl E Nr D) as (dc & c1 & w & -> & E2 & _). symmetry in E2. apply app_eq_nil in E2 as [_ E2]. contradiction.
  - intros k ts c os I Ws IH (L & B & ->) cfg d p rest o E Nr D. destruct (header_cut _ _ _ _ _ _ _ _ _ (kind_octet_low k) B eq_refl E Nr D) as (dc & c1 & w & -> & -> & Rg & Dc).
    destruct (seq_something _ _ _ _ _ _ I Rg Dc) as (ws & Dw). destruct (IH cfg d c1 rest ws eq_refl Dw) as [(t1 & t2 & -> & W1 & W2)|(t1 & t & t' & t2 & a1 & b & b' & c & -> & W1 & C & W2 & E1 & ->)].
    + eexists. apply cut_after; auto.
    + eexists. rewrite E1 in *. eapply cut_inside; eauto.
  - intros cfg d p rest ws E _. symmetry in E. apply app_eq_nil in E as [-> ->]. left. exists [], []. repeat split; constructor.
  - intros t ts a b W IHt Wb IHb cfg d p rest ws E D. destruct (wire_header _ _ _ W) as (tag & L & c & Ea & Ht & B).
    apply app_eq_app in E as (x & [[E1 E2]|[E1 E2]]).
    + destruct p as [|b0 p]; [left; exists [], (t :: ts); cbn [app] in E1; subst x rest; repeat split; constructor; assumption|]. destruct x as [|x0 x].
      * rewrite app_nil_r in E1. cbn [app] in E2. subst rest. left. exists [t], ts. repeat split; [|exact Wb]. rewrite <- E1, <- (app_nil_r a). constructor; [exact W|constructor].
      * destruct d as [|d]; [discriminate D|]. destruct (decode_step _ _ _ _ _ D) as (w & r & ws' & D1 & _). destruct (IHt cfg d _ _ _ E1 ltac:(discriminate) D1) as (t' & C).
        right. exists [], t, t', ts, [], a, (b0 :: p), b. repeat split; auto. constructor.
    + subst p. destruct d as [|d]; [discriminate D|]. rewrite Ea in D. cbn [app] in D. destruct (decode_step _ _ _ _ _ D) as (w & r & ws' & D1 & D2 & _).
      change (tag :: (L ++ c) ++ x) with ((tag :: L ++ c) ++ x) in D1. apply (whole_one _ _ _ _ _ _ _ _ _ Ht B eq_refl) in D1 as ->.
      destruct (IHb cfg (S d) x rest _ E2 D2) as [(t1 & t2 & -> & W1 & W2)|(t1 & u & u' & t2 & a1 & v & v' & y & -> & W1 & C & W2 & -> & ->)].
      * left. exists (t :: t1), t2. repeat split; auto. constructor; assumption.
      * right. exists (t :: t1), u, u', t2, (a ++ a1), v, v', y. rewrite <- !app_assoc. repeat split; auto. constructor; assumption.
Qed.
Theorem cuts_only cfg strict t os p rest depth l : wire strict t os -> os = p ++ rest -> rest <> [] -> decode (reg_of cfg) depth p = Ok l ->
  (p = [] /\ l = []) \/ exists t', cut strict t os t' p.
Proof.
  intros W E N D. destruct depth as [|d]; [discriminate|]. destruct p as [|b p]; [left; split; [reflexivity|]; cbn in D; congruence|]. right.
  destruct (decode_step _ _ _ _ _ D) as (w & r & ws' & D1 & _). exact (all_cuts _ _ _ W cfg d _ _ _ E N D1).
Qed.
(** ** What is accepted of an answer *)
Lemma cut_header strict t os t' p : cut strict t os t' p -> exists tag L c n, p = tag :: L ++ c /\ Z.land tag 31 <> 31 /\ ber_length n L /\ zlen c <= n.
Proof.
  intros C. inversion C as [k c1 c2 L I O N S B|k s1 s2 L I B|l l' c1 c2 L O O' B|k ts us a b L I Wa Wb B|k ts u u' us a b b' c L I Wa Cu Wc B]; subst; eexists _, L, _, _; (split; [reflexivity|]); (split; [first [apply kind_octet_low|discriminate]|]); (split; [exact B|]); try apply zlen_prefix.
  destruct (cut_prefix _ _ _ _ _ Cu) as (_ & rest & ->). unfold zlen. rewrite !app_length. lia.
Qed.
Lemma cut_one strict t os t' p reg d ws : cut strict t os t' p -> decode reg (S d) p = Ok ws -> exists w, ws = [w] /\ decode_one reg (decode reg d) p = Ok (w, []).
Proof.
  intros C D. destruct (cut_header _ _ _ _ _ C) as (tag & L & c & n & -> & Ht & B & Hn). destruct (decode_step _ _ _ _ _ D) as (w & r & ws' & D1 & D2 & ->). exists w.
  rewrite (decode_one_over tag c n L Ht Hn B) in *. destruct (reg_get reg tag) as [dc|]; [|discriminate]. destruct (decodeContents (decode reg d) dc c); [|discriminate]. injection D1 as <- <-. cbn in D2. injection D2 as <-. auto.
Qed.
Lemma wires_count strict ts a : wires strict ts a -> forall reg d y ws, decode reg (S d) (a ++ y) = Ok ws -> exists w1 w2, ws = w1 ++ w2 /\ length w1 = length ts /\ decode reg (S d) y = Ok w2.
Proof.
  induction 1 as [|t ts a b W _ IH]; intros reg d y ws D; [exists [], ws; auto|]. destruct (wire_header _ _ _ W) as (tag & L & c & -> & Ht & B). rewrite <- app_assoc in D. cbn [app] in D. destruct (decode_step _ _ _ _ _ D) as (w & r & ws' & D1 & D2 & ->).
  change (tag :: (L ++ c) ++ b ++ y) with ((tag :: L ++ c) ++ b ++ y) in D1. apply (whole_one _ _ _ _ _ _ _ _ _ Ht B eq_refl) in D1 as ->. destruct (IH _ _ _ _ D2) as (w1 & w2 & -> & Le & D3). exists (w :: w1), w2. cbn [length app]. auto.
Qed.
Lemma cut_last strict k l os t' p : cut strict (TSeq k l) os t' p -> exists L c1 n, p = kind_octet k :: L ++ c1 /\ ber_length n L /\ zlen c1 <= n /\ seq_kind k = true /\
  forall reg d ws, decode reg (S d) c1 = Ok ws ->
  (exists l' us, l = l' ++ us /\ t' = TSeq k l' /\ length ws = length l' /\ (us = [] -> os = p)) \/
  (exists ts t t1 us b b' w0 w1, l = ts ++ t :: us /\ t' = TSeq k (ts ++ [t1]) /\ cut strict t b t1 b' /\ ws = w0 ++ [w1] /\ length w0 = length ts /\ decode_one reg (decode reg d) b' = Ok (w1, []) /\ 
     (us = [] -> forall rest, os = p ++ rest -> b = b' ++ rest)).
Proof.
  intros C. inversion C as [| | |k' ts us a b L I Wa Wb B|k' ts u u' us a b b' c L I Wa Cu Wc B]; subst; eexists L, _, _; (split; [reflexivity|]); (split; [exact B|]).
  - split; [apply zlen_prefix|]. split; [exact I|]. intros reg d ws D. left. exists ts, us. rewrite <- (app_nil_r a) in D. destruct (wires_count _ _ _ Wa _ _ _ _ D) as (w1 & w2 & -> & Le & D2). cbn in D2. injection D2 as <-. rewrite app_nil_r. repeat split; auto.
    intros ->. inversion Wb; subst. rewrite app_nil_r. reflexivity.
  - destruct (cut_prefix _ _ _ _ _ Cu) as (_ & rest & E). split; [subst b; unfold zlen; rewrite !app_length; lia|]. split; [exact I|]. intros reg d ws D. right. destruct (wires_count _ _ _ Wa _ _ _ _ D) as (w1 & w2 & -> & Le & D2). destruct (cut_one _ _ _ _ _ _ _ _ Cu D2) as (w & -> & D3).
    exists ts, u, u', us, b, b', w1, w. repeat split; auto. intros -> rest' E2. inversion Wc; subst. rewrite app_nil_r in E2. apply (f_equal (@tl Z)) in E2. cbn [app tl] in E2. rewrite <- !app_assoc in E2. apply app_inv_head in E2. apply app_inv_head in E2. apply app_inv_head in E2. congruence.
Qed.
Lemma pdu_inner cfg k d dec c w : seq_kind k = true -> k <> KSequence -> k <> KTrapV1 -> reg_get (reg_of cfg) (kind_octet k) = Some d -> decodeContents dec d c = Ok w ->
  exists o0 o1 o2 o3 items C vbs, dec c = Ok [o0; o1; o2; o3] /\ py_iter o3 = Ok items /\ mapM (build_varbind C) items = Ok vbs.
Proof.
  intros K N1 N2 Rg D.
  assert (P : exists ws, dec c = Ok ws /\ (pdu_of_objects d ws = Ok w \/ bulkpdu_of_objects d ws = Ok w)).
  { destruct (seq_something _ _ _ _ _ _ K Rg D) as (ws & X). exists ws. split; [exact X|]. destruct k; try discriminate K; try congruence; classes Rg; unfold decodeContents in D; cbn -[pdu_of_objects bulkpdu_of_objects] in D; rewrite X in D; cbn [bind] in D; auto. }
  destruct P as (ws & X & [P|P]); destruct ws as [|o0 [|o1 [|o2 [|o3 [|? ?]]]]]; try discriminate P; cbn [pdu_of_objects bulkpdu_of_objects] in P; destruct (py_iter o3) as [items|] eqn:It; try discriminate P; cbn [bind] in P.
  - destruct (mapM (build_varbind CVarBind) items) as [vbs|] eqn:M; [|discriminate P]. exists o0, o1, o2, o3, items, CVarBind, vbs. auto.
  - destruct (mapM (build_varbind CVarBind_v2) items) as [vbs|] eqn:M; [|discriminate P]. exists o0, o1, o2, o3, items, CVarBind_v2, vbs. auto.
Qed.
Lemma plain_inner cfg d dec c w : reg_get (reg_of cfg) (kind_octet KSequence) = Some d -> decodeContents dec d c = Ok w -> exists l, dec c = Ok l /\ w = VSeq d l.
Proof. intros Rg D. destruct (seq_something _ KSequence _ _ _ _ eq_refl Rg D) as (l & X). exists l. split; [exact X|]. classes Rg; unfold decodeContents in D; cbn in D; rewrite X in D; injection D as <-; reflexivity. Qed.
Lemma one_inner reg dec tag L c n w r : Z.land tag 31 <> 31 -> zlen c <= n -> ber_length n L -> decode_one reg dec (tag :: L ++ c) = Ok (w, r) -> exists d, reg_get reg tag = Some d /\ decodeContents dec d c = Ok w.
Proof. intros Ht Hn B D. rewrite (decode_one_over tag c n L Ht Hn B) in D. destruct (reg_get reg tag) as [d|]; [|discriminate]. exists d. split; [reflexivity|]. destruct (decodeContents dec d c); [injection D as <- _; reflexivity|discriminate]. Qed.
Lemma mapM_last {A B} (f : A -> res B) w0 w1 l : mapM f (w0 ++ [w1]) = Ok l -> exists y, f w1 = Ok y.
Proof. revert l. induction w0 as [|x w0 IH]; intros l H; cbn [app mapM] in H; [destruct (f w1); [eauto|discriminate]|]. destruct (f x); [|discriminate]. cbn [bind] in H. destruct (mapM f (w0 ++ [w1])) eqn:E; [eauto|discriminate]. Qed.
Lemma binding_cut cfg strict b x t1 x' d w C y : cut strict (binding_tree b) x t1 x' -> decode_one (reg_of cfg) (decode (reg_of cfg) d) x' = Ok (w, []) -> build_varbind C w = Ok y ->
  t1 = binding_tree b \/ exists v' a a', t1 = binding_tree (fst b, v') /\ cut strict (snd b) a v' a'.
Proof.
  intros Cu D Bv. destruct (cut_last _ _ _ _ _ _ Cu) as (L & c1 & n & -> & B & Hn & _ & X). destruct (one_inner _ _ _ _ _ _ _ _ (kind_octet_low KSequence) Hn B D) as (dc & Rg & Dc). destruct (plain_inner _ _ _ _ _ Rg Dc) as (l & Dl & ->).
  destruct d as [|d]; [discriminate Dl|]. assert (Ll : (2 <= length l)%nat).
  { destruct l as [|l0 [|l1 l]]; [discriminate Bv|exfalso; unfold build_varbind in Bv; cbn in Bv; discriminate Bv|cbn; lia]. }
  destruct (X _ _ _ Dl) as [(l' & us & E & -> & Le & _)|(ts & t & t2 & us & a & a' & w0 & w1 & E & -> & Ct & -> & Le & _)].
  - left. destruct l' as [|? [|? [|? ?]]]; cbn [length] in *; try lia; cbn [app] in E; injection E as <- <-; try discriminate; reflexivity.
  - rewrite app_length in Ll. cbn [length] in Ll. destruct ts as [|? [|? ts]]; cbn [length app] in *; try lia; [|destruct ts; discriminate E]. injection E as <- <- <-. right. exists t2, a, a'. auto.
Qed.
Lemma bindings_cut cfg strict bs x t1 x' d w C items vbs : cut strict (TSeq KSequence (map binding_tree bs)) x t1 x' -> decode_one (reg_of cfg) (decode (reg_of cfg) d) x' = Ok (w, []) -> py_iter w = Ok items -> mapM (build_varbind C) items = Ok vbs ->
  exists bs', t1 = TSeq KSequence (map binding_tree bs') /\ shortened strict bs bs'.
Proof.
  intros Cu D It M. destruct (cut_last _ _ _ _ _ _ Cu) as (L & c1 & n & -> & B & Hn & _ & X). destruct (one_inner _ _ _ _ _ _ _ _ (kind_octet_low KSequence) Hn B D) as (dc & Rg & Dc). destruct (plain_inner _ _ _ _ _ Rg Dc) as (l & Dl & ->).
  cbn [py_iter] in It. injection It as <-. destruct d as [|d]; [discriminate Dl|]. destruct (X _ _ _ Dl) as [(l' & us & E & -> & _)|(ts & t & t2 & us & a & a' & w0 & w1 & E & -> & Ct & -> & Le & D1 & _)].
  - apply map_eq_app in E as (b1 & b2 & -> & <- & _). exists b1. split; [reflexivity|]. left. exists b2. reflexivity.
  - apply map_eq_app in E as (b1 & b2 & -> & <- & E). apply map_eq_cons in E as (b & b3 & -> & <- & _). destruct (mapM_last _ _ _ _ M) as (y & My). destruct (binding_cut _ _ _ _ _ _ _ _ _ _ Ct D1 My) as [->|(v' & p & p' & -> & Cv)].
    + exists (b1 ++ [b]). split; [rewrite map_app; reflexivity|]. left. exists b3. rewrite <- app_assoc. reflexivity.
    + exists (b1 ++ [(fst b, v')]). split; [rewrite map_app; reflexivity|]. right. exists b1, (fst b), (snd b), v', b3, p, p'. destruct b; auto.
Qed.
Theorem message_cut cfg strict ver com k id status index bs os p rest c depth m : seq_kind k = true -> k <> KSequence -> k <> KTrapV1 -> 
  wire strict (message_tree ver com (request_tree k id status index bs)) os -> os = p ++ rest -> rest <> [] -> message_decode (reg_of cfg) depth c (DStr p) = Ok m ->
  exists bs', cut strict (message_tree ver com (request_tree k id status index bs)) os (message_tree ver com (request_tree k id status index bs')) p /\ shortened strict bs bs'.
Proof.
  intros K N1 N2 W E N D. unfold message_decode, decode_data in D. destruct (decode (reg_of cfg) depth p) as [l|e] eqn:X; [|discriminate].
  destruct (cuts_only _ _ _ _ _ _ _ _ W E N X) as [[-> ->]|[t' Cu]]; [discriminate D|].
  destruct depth as [|d]; [discriminate X|]. destruct (cut_one _ _ _ _ _ _ _ _ Cu X) as (w & -> & D1). cbn [bind] in D.
  pose proof Cu as Cu'. destruct (cut_last _ _ _ _ _ _ Cu) as (L & c1 & n & Ep & B & Hn & _ & Y). rewrite Ep in D1. destruct (one_inner _ _ _ _ _ _ _ _ (kind_octet_low KSequence) Hn B D1) as (dc & Rg & Dc). destruct (plain_inner _ _ _ _ _ Rg Dc) as (l & Dl & ->).
  destruct d as [|d]; [discriminate Dl|]. cbn [py_len bind] in D. destruct (zlen l =? 3) eqn:Z3; [|discriminate D]. assert (Ll : length l = 3%nat) by (unfold zlen in Z3; lia). clear D Dc X.
  destruct (Y _ _ _ Dl) as [(l' & us & El & -> & Le & Eo)|(ts & t & t2 & us & a & a' & w0 & w1 & El & -> & Ct & -> & Le & D2 & R)].
  { exfalso. apply N. assert (us = []). { apply (f_equal (@length tree)) in El. rewrite app_length in El. cbn [length] in El. destruct us; [reflexivity|cbn in El; lia]. } specialize (Eo H). rewrite Eo in E. rewrite <- (app_nil_r p) in E at 1. apply app_inv_head in E. congruence. }
  rewrite app_length in Ll. cbn [length] in Ll. destruct ts as [|? [|? [|? ts]]]; cbn [length app] in *; try lia; injection El as <- <- <- <-.
  specialize (R eq_refl _ E). clear Y.
  destruct (cut_last _ _ _ _ _ _ Ct) as (L2 & c2 & n2 & Ep2 & B2 & Hn2 & _ & Y). rewrite Ep2 in D2. destruct (one_inner _ _ _ _ _ _ _ _ (kind_octet_low k) Hn2 B2 D2) as (dc2 & Rg2 & Dc2).
  destruct (pdu_inner _ _ _ _ _ _ K N1 N2 Rg2 Dc2) as (o0 & o1 & o2 & o3 & items & C & vbs & Dl2 & It & M). destruct d as [|d]; [discriminate Dl2|].
  destruct (Y _ _ _ Dl2) as [(l' & us & El & -> & Le2 & Eo)|(ts & t & t3 & us & b & b' & v0 & v1 & El & -> & Ct2 & Ev & Le2 & D3 & R2)].
  { exfalso. apply N. assert (us = []). { apply (f_equal (@length tree)) in El. rewrite app_length in El. cbn [length] in *. destruct us; [reflexivity|cbn in El; lia]. } specialize (Eo H). rewrite R in Eo. rewrite <- (app_nil_r a') in Eo at 2. apply app_inv_head in Eo. exact Eo. }
  destruct v0 as [|? [|? [|? [|? v0]]]]; cbn [app] in Ev; try discriminate Ev; [|destruct v0; discriminate Ev]. injection Ev as <- <- <- <-. destruct ts as [|? [|? [|? [|? ts]]]]; cbn [length] in Le2; try lia; cbn [app] in El. injection El as <- <- <- <- <-.
  destruct (bindings_cut _ _ _ _ _ _ _ _ _ _ _ Ct2 D3 It M) as (bs' & -> & Sh). exists bs'. split; [exact Cu'|exact Sh].
Qed.
(** ** And of a trap *)
Lemma trap_inner cfg d dec c w : reg_get (reg_of cfg) (kind_octet KTrapV1) = Some d -> decodeContents dec d c = Ok w ->
  exists o0 o1 o2 o3 o4 o5 items C vbs, dec c = Ok [o0; o1; o2; o3; o4; o5] /\ py_iter o5 = Ok items /\ mapM (build_varbind C) items = Ok vbs.
Proof.
  intros Rg D. destruct (seq_something _ KTrapV1 _ _ _ _ eq_refl Rg D) as (ws & X).
  assert (P : trappdu_of_objects ws = Ok w). { classes Rg; unfold decodeContents in D; cbn -[trappdu_of_objects] in D; rewrite X in D; cbn [bind] in D; exact D. }
  destruct ws as [|o0 [|o1 [|o2 [|o3 [|o4 [|o5 [|? ?]]]]]]]; try discriminate P; cbn [trappdu_of_objects] in P; destruct (py_iter o5) as [items|] eqn:It; try discriminate P; cbn [bind] in P.
  destruct (mapM (build_varbind CVarBind) items) as [vbs|] eqn:M; [|discriminate P]. exists o0, o1, o2, o3, o4, o5, items, CVarBind, vbs. auto.
Qed.
Theorem trap_message_cut cfg strict ver com ent agent g sp ticks bs os p rest c depth m :
  wire strict (message_tree ver com (trap_tree ent agent g sp ticks bs)) os -> os = p ++ rest -> rest <> [] -> message_decode (reg_of cfg) depth c (DStr p) = Ok m ->
  exists bs', cut strict (message_tree ver com (trap_tree ent agent g sp ticks bs)) os (message_tree ver com (trap_tree ent agent g sp ticks bs')) p /\ shortened strict bs bs'.
Proof.
  intros W E N D. unfold message_decode, decode_data in D. destruct (decode (reg_of cfg) depth p) as [l|e] eqn:X; [|discriminate].
  destruct (cuts_only _ _ _ _ _ _ _ _ W E N X) as [[-> ->]|[t' Cu]]; [discriminate D|].
  destruct depth as [|d]; [discriminate X|]. destruct (cut_one _ _ _ _ _ _ _ _ Cu X) as (w & -> & D1). cbn [bind] in D.
  pose proof Cu as Cu'. destruct (cut_last _ _ _ _ _ _ Cu) as (L & c1 & n & Ep & B & Hn & _ & Y). rewrite Ep in D1. destruct (one_inner _ _ _ _ _ _ _ _ (kind_octet_low KSequence) Hn B D1) as (dc & Rg & Dc). destruct (plain_inner _ _ _ _ _ Rg Dc) as (l & Dl & ->).
  destruct d as [|d]; [discriminate Dl|]. cbn [py_len bind] in D. destruct (zlen l =? 3) eqn:Z3; [|discriminate D]. assert (Ll : length l = 3%nat) by (unfold zlen in Z3; lia). clear D Dc X.
  destruct (Y _ _ _ Dl) as [(l' & us & El & -> & Le & Eo)|(ts & t & t2 & us & a & a' & w0 & w1 & El & -> & Ct & -> & Le & D2 & R)].
  { exfalso. apply N. assert (us = []). { apply (f_equal (@length tree)) in El. rewrite app_length in El. cbn [length] in El. destruct us; [reflexivity|cbn in El; lia]. } specialize (Eo H). rewrite Eo in E. rewrite <- (app_nil_r p) in E at 1. apply app_inv_head in E. congruence. }
  rewrite app_length in Ll. cbn [length] in Ll. destruct ts as [|? [|? [|? ts]]]; cbn [length app] in *; try lia; injection El as <- <- <- <-.
  specialize (R eq_refl _ E). clear Y.
  destruct (cut_last _ _ _ _ _ _ Ct) as (L2 & c2 & n2 & Ep2 & B2 & Hn2 & _ & Y). rewrite Ep2 in D2. destruct (one_inner _ _ _ _ _ _ _ _ (kind_octet_low KTrapV1) Hn2 B2 D2) as (dc2 & Rg2 & Dc2).
  destruct (trap_inner _ _ _ _ _ Rg2 Dc2) as (o0 & o1 & o2 & o3 & o4 & o5 & items & C & vbs & Dl2 & It & M). destruct d as [|d]; [discriminate Dl2|].
  destruct (Y _ _ _ Dl2) as [(l' & us & El & -> & Le2 & Eo)|(ts & t & t3 & us & b & b' & v0 & v1 & El & -> & Ct2 & Ev & Le2 & D3 & R2)].
  { exfalso. apply N. assert (us = []). { apply (f_equal (@length tree)) in El. rewrite app_length in El. cbn [length] in *. destruct us; [reflexivity|cbn in El; lia]. } specialize (Eo H). rewrite R in Eo. rewrite <- (app_nil_r a') in Eo at 2. apply app_inv_head in Eo. exact Eo. }
  assert (L0 : length v0 = 5%nat). { apply (f_equal (@length val)) in Ev. rewrite app_length in Ev. cbn [length] in Ev. lia. }
  destruct v0 as [|? [|? [|? [|? [|? [|? v0]]]]]]; try discriminate L0. cbn [app] in Ev. injection Ev as <- <- <- <- <- <-. destruct ts as [|? [|? [|? [|? [|? [|? ts]]]]]]; cbn [length] in Le2; try lia; cbn [app] in El. injection El as <- <- <- <- <- <- <-.
  destruct (bindings_cut _ _ _ _ _ _ _ _ _ _ _ Ct2 D3 It M) as (bs' & -> & Sh). exists bs'. split; [exact Cu'|exact Sh].
Qed.
