(** Constructors on objects do what constructors on values do, errors included. *)
From Coq Require Import ZArith List Bool Lia.
From Verif Require Import PyBase Classes Values Codec Manager Heap SpecHeap SpecRefine.
From Verif Require Import ProofsHeap ProofsHeapKeep ProofsHeapMake ProofsHeapValue ProofsHeapRun.
Import ListNotations.
Open Scope Z_scope.

Definition hsim {A B} (R : heap -> A -> B -> Prop) (h : heap) (x : heap * res A) (y : res B) : Prop :=
  exists t, fst x = h ++ t /\ match y with Ok b => exists a, snd x = Ok a /\ R (h ++ t) a b | Err e => snd x = Err e end.
Lemma hsim_bind {A B C E} (R : heap -> A -> B -> Prop) (Q : heap -> C -> E -> Prop) h (x : H A) (f : A -> H C) (y : res B) (g : B -> res E) :
  hsim R h (x h) y -> (forall t a b, R (h ++ t) a b -> hsim Q (h ++ t) (f a (h ++ t)) (g b)) -> hsim Q h (hbind x f h) (bind y g).
Proof.
  intros (t & Et & X) F. unfold hbind. destruct (x h) as [h1 r]; cbn [fst snd] in *. subst h1. destruct y as [b|e].
  - destruct X as (a & -> & Ra). destruct (F t a b Ra) as (t' & E' & X'). exists (t ++ t'). rewrite E', app_assoc. split; [reflexivity|]. exact X'.
  - subst r. exists t. split; reflexivity.
Qed.
(** the heap side does something the value side does not see *)
Lemma hsim_skip {A C E} (P : heap -> A -> Prop) (Q : heap -> C -> E -> Prop) h (x : H A) (f : A -> H C) (y : res E) :
  hsim (fun h a (_ : unit) => P h a) h (x h) (Ok tt) -> (forall t a, P (h ++ t) a -> hsim Q (h ++ t) (f a (h ++ t)) y) -> hsim Q h (hbind x f h) y.
Proof.
  intros (t & Et & a & Ea & Pa) F. unfold hbind. destruct (x h) as [h1 r]; cbn [fst snd] in *. subst h1 r.
  destruct (F t a Pa) as (t' & E' & X'). exists (t ++ t'). rewrite E', app_assoc. split; [reflexivity|]. exact X'.
Qed.
Lemma hsim_ret {A B} (R : heap -> A -> B -> Prop) h (a : A) (b : B) : R h a b -> hsim R h (hret a h) (Ok b).
Proof. intros X. exists []. cbn. rewrite app_nil_r. split; [reflexivity|]. exists a. split; [reflexivity|exact X]. Qed.
Lemma hsim_err {A B} (R : heap -> A -> B -> Prop) h e : hsim R h (h, Err e) (@Err B e).
Proof. exists []. rewrite app_nil_r. split; reflexivity. Qed.
Lemma hsim_rd {A B} (R : heap -> A -> B -> Prop) h (f : heap -> res A) (y : res B) :
  match y with Ok b => exists a, f h = Ok a /\ R h a b | Err e => f h = Err e end -> hsim R h (rd f h) y.
Proof. intros X. exists []. cbn. rewrite app_nil_r. split; [reflexivity|]. exact X. Qed.
Lemma hsim_new {B} (R : heap -> item -> B -> Prop) h c (b : B) : R (h ++ [c]) (IRef (length h)) b -> hsim R h (new c h) (Ok b).
Proof. intros X. exists [c]. split; [reflexivity|]. exists (IRef (length h)). split; [reflexivity|exact X]. Qed.
Lemma hsim_weaken {A B} (R Q : heap -> A -> B -> Prop) h x y : hsim R h x y -> (forall t a b, R (h ++ t) a b -> Q (h ++ t) a b) -> hsim Q h x y.
Proof. intros (t & E & X) W. exists t. split; [exact E|]. destruct y as [b|]; [|exact X]. destruct X as (a & Ea & Ra). exists a. auto. Qed.

Lemma all_now_ext h t is vs : all_now h is vs -> all_now (h ++ t) is vs. Proof. apply stand_all_ext. Qed.
Lemma arg_ext h t i v : arg h i v -> arg (h ++ t) i v. Proof. intros [A B]. split; [apply now_ext; exact A|exact B]. Qed.
Lemma nth_new (h : heap) c : nth_error (h ++ [c]) (length h) = Some c. Proof. rewrite nth_error_app2, Nat.sub_diag by lia. reflexivity. Qed.

Lemma now_new_list h is vs : all_now h is vs -> now (h ++ [PList is]) (IRef (length h)) (VPyList vs).
Proof. intros X. eapply st_list; [trivial|apply nth_new|apply all_now_ext; exact X]. Qed.
Lemma now_new_seq h c d a is vs : kind_of c = KSeq -> assoc d Avalue = Some (IRef a) -> nth_error h a = Some (PList is) -> all_now h is vs ->
  now (h ++ [PObj c d]) (IRef (length h)) (VSeq c vs).
Proof. intros K A N X. eapply st_seq; [trivial|apply nth_new|exact K|exact A|trivial|apply nth_ext; exact N|apply all_now_ext; exact X]. Qed.
Lemma now_copy h l c v : now h (IRef l) v -> nth_error h l = Some c -> now (h ++ [c]) (IRef (length h)) v.
Proof.
  intros X N. pose proof (nth_new h c) as L. inversion X; subst; try match goal with B : False |- _ => destruct B end;
    match goal with B : nth_error h l = Some _ |- _ => rewrite N in B; injection B as -> end.
  - eapply st_list; [trivial|exact L|]. apply all_now_ext. assumption.
  - eapply st_integer; eauto.
  - eapply st_octets; try eassumption; try exact Logic.I. apply now_ext. assumption.
  - eapply st_noarcs; eauto.
  - eapply st_arcs; try eassumption; try exact Logic.I. apply nth_ext. assumption.
  - eapply st_null; eauto.
  - eapply st_seq; try eassumption; try exact Logic.I. apply nth_ext. eassumption. apply all_now_ext. assumption.
  - eapply st_msg; try eassumption; try exact Logic.I. apply all_now_ext. assumption.
Qed.
Lemma now_in h l v : now h (IRef l) v -> exists c, nth_error h l = Some c.
Proof. intros X. inversion X; subst; eauto. contradiction. Qed.

Lemma s_integer h c i v : kind_of c = KInt -> now h i v -> hsim now h (h_integer c i h) (integer_init c v).
Proof.
  intros K X. inversion X; subst; try match goal with B : False |- _ => destruct B end; try apply hsim_err.
  cbn [h_integer integer_init]. destruct ((MINVAL c <=? z) && (z <=? MAXVAL c)); [|apply hsim_err]. apply hsim_new. eapply st_integer; [trivial|apply nth_new|exact K|reflexivity].
Qed.
Lemma s_int h c z : kind_of c = KInt -> hsim now h (h_integer c (IInt z) h) (integer_init c (VPyInt z)).
Proof. intros K. apply s_integer; [exact K|constructor]. Qed.
Lemma s_copy h i v : now h i v -> hsim now h (py_copy i h) (Ok v).
Proof.
  intros X. destruct i as [| | |l]; try (apply hsim_ret; exact X). destruct (now_in _ _ _ X) as (c & N). cbn [py_copy]. rewrite N. apply hsim_new. eapply now_copy; eassumption.
Qed.
Lemma s_octet_cell h c i v : kind_of c = KOct -> now h i v -> hsim now h (new (PObj c [(Avalue, i)]) h) (Ok (VOct c v)).
Proof. intros K X. apply hsim_new. eapply st_octets; [trivial|apply nth_new|exact K|reflexivity|apply now_ext; exact X]. Qed.
Lemma s_octetstring h c i v : kind_of c = KOct -> now h i v -> hsim now h (h_octetstring c i h) (Ok (octetstring_init c v)).
Proof.
  intros K X. unfold h_octetstring. replace (Ok (octetstring_init c v)) with (bind (Ok v) (fun v => Ok (octetstring_init c v))) by reflexivity.
  eapply hsim_bind; [apply s_copy; exact X|]. intros t a b Xa. apply s_octet_cell; assumption.
Qed.
Lemma s_ipaddress h c i v : kind_of c = KOct -> now h i v -> hsim now h (h_ipaddress c i h) (ipaddress_init c v).
Proof.
  intros K X. assert (E : forall h, hsim now h (new (PObj c [(Avalue, IStr [])]) h) (Ok (VOct c (VPyStr [])))) by (intros; apply s_octet_cell; [exact K|constructor]).
  destruct i as [|z|s|l].
  - inversion X; subst. apply E.
  - inversion X; subst. apply E.
  - inversion X; subst. cbn [h_ipaddress ipaddress_init]. cbv zeta. destruct (negb _); [apply hsim_err|]. eapply hsim_bind with (R := fun _ a b => a = b).
    + unfold hlift. destruct (mapM _ _); [|apply hsim_err]. apply hsim_ret. reflexivity.
    + intros t a b <-. apply s_octet_cell; [exact K|constructor].
  - destruct (now_in _ _ _ X) as (cl & N). cbn [h_ipaddress]. rewrite N. inversion X; subst; try match goal with B : False |- _ => destruct B end;
      match goal with B : nth_error h l = Some _ |- _ => rewrite N in B; injection B as -> end; cbn [ipaddress_init]; try apply E.
    match goal with B : stand_all _ _ _ _ _ |- _ => rewrite (stand_all_len _ _ _ _ _ B) end. destruct (negb _); [apply hsim_err|].
    replace (Ok (VOct c (VPyList vs))) with (bind (Ok (VPyList vs)) (fun v => Ok (octetstring_init c v))) by reflexivity.
    eapply hsim_bind; [apply s_copy; exact X|]. intros t a b Xa. apply s_octet_cell; assumption.
Qed.
Lemma s_arcs h zs : hsim now h ((v <== new (PList (map IInt zs)) ;; new (PObj CObjectID [(Avalue, v)])) h) (Ok (VOid (Some zs))).
Proof.
  apply hsim_skip with (P := fun h a => exists l, a = IRef l /\ nth_error h l = Some (PList (map IInt zs))).
  - apply hsim_new. exists (length h). split; [reflexivity|apply nth_new].
  - intros t a (l & -> & N). apply hsim_new. eapply st_arcs; [trivial|apply nth_new|reflexivity|reflexivity|trivial|apply nth_ext; exact N].
Qed.
Lemma mapM_ints zs : mapM val_to_int (map VPyInt zs) = Ok zs.
Proof. induction zs as [|z r IH]; [reflexivity|]. cbn. rewrite IH. reflexivity. Qed.
Lemma all_now_ints h is zs : all_now h is (map VPyInt zs) -> is = map IInt zs.
Proof. intros X. eapply now_ints; [exact X|apply mapM_ints]. Qed.
Lemma kind_not_oid c k : kind_of c = k -> k <> KOid -> issubclass c CObjectID = false.
Proof. destruct c; intros <- N; try reflexivity; exfalso; apply N; reflexivity. Qed.
Lemma s_objectid h i v : now h i v -> int_list v -> hsim now h (h_objectid i h) (oid_init v).
Proof.
  intros X L. destruct i as [|z|s|l].
  - inversion X; subst. cbn. apply hsim_new. eapply st_noarcs; [trivial|apply nth_new|reflexivity|reflexivity].
  - inversion X; subst. cbn [h_objectid oid_init]. apply (s_arcs h [z]).
  - inversion X; subst. cbn [h_objectid oid_init]. eapply hsim_bind with (R := fun _ a b => a = b).
    + unfold hlift. destruct (oid_of_str s); [apply hsim_ret; reflexivity|apply hsim_err].
    + intros t a b <-. apply s_arcs.
  - destruct (now_in _ _ _ X) as (cl & N). cbn [h_objectid]. rewrite N. inversion X; subst; try match goal with B : False |- _ => destruct B end;
      match goal with B : nth_error h l = Some _ |- _ => rewrite N in B; injection B as -> end; cbn [oid_init];
      try (rewrite (kind_not_oid c _ ltac:(eassumption)) by discriminate; apply hsim_err).
    + destruct L as (zs & ->). match goal with B : stand_all _ _ _ _ _ |- _ => rewrite (all_now_ints _ _ _ B) end. rewrite mapM_ints. apply s_arcs.
    + assert (Ec : c = CObjectID) by (apply koid; assumption). rewrite Ec. change (issubclass CObjectID CObjectID) with true. cbn iota. unfold hbind at 1, rd.
      match goal with B : assoc d _ = _ |- _ => rewrite (attr_at _ _ _ _ Avalue _ N B) end. cbn [bind list_at]. apply hsim_err.
    + assert (Ec : c = CObjectID) by (apply koid; assumption). rewrite Ec. change (issubclass CObjectID CObjectID) with true. cbn iota. unfold hbind at 1, rd.
      match goal with B : assoc d _ = _ |- _ => rewrite (attr_at _ _ _ _ Avalue _ N B) end. cbn [bind list_at]. match goal with B : nth_error h _ = Some (PList _) |- _ => rewrite B end. apply s_arcs.
Qed.
Definition rsim {A B} (R : A -> B -> Prop) (x : res A) (y : res B) : Prop := match y with Ok b => exists a, x = Ok a /\ R a b | Err e => x = Err e end.
Lemma elems_sim h i v : arg h i v -> rsim (all_now h) (elems h i) (py_iter v).
Proof.
  intros [X P]. inversion X; subst; try match goal with B : False |- _ => destruct B end; try reflexivity; try (unfold rsim, elems; rewrite H0).
  - cbn. eexists. split; [reflexivity|]. clear. induction s as [|c s IH]; [constructor|]. cbn. constructor; [constructor|exact IH].
  - eexists. split; [reflexivity|]. assumption.
  - assert (K := kother c ltac:(tauto)). apply orb_false_iff in K. destruct K as [-> ->]. reflexivity.
  - assert (K := kother c ltac:(tauto)). apply orb_false_iff in K. destruct K as [-> ->]. reflexivity.
  - assert (Ec : c = CObjectID) by (apply koid; assumption). rewrite Ec. cbn [issubclass]. change (issubclass CObjectID CObjectID) with true. cbn iota.
    match goal with B : assoc d _ = _, N : nth_error h l = _ |- _ => rewrite (attr_at _ _ _ _ Avalue _ N B) end. reflexivity.
  - assert (Ec : c = CObjectID) by (apply koid; assumption). rewrite Ec. change (issubclass CObjectID CObjectID) with true. cbn iota.
    match goal with B : assoc d _ = _, N : nth_error h l = _ |- _ => rewrite (attr_at _ _ _ _ Avalue _ N B) end. cbn [bind list_at].
    match goal with B : nth_error h _ = Some (PList _) |- _ => rewrite B end. cbn. eexists. split; [reflexivity|]. clear. induction zs as [|z s IH]; [constructor|]. cbn. constructor; [constructor|exact IH].
  - assert (K := kother c ltac:(tauto)). apply orb_false_iff in K. destruct K as [-> ->]. reflexivity.
  - destruct (kseq c ltac:(assumption)) as [-> ->]. match goal with B : assoc d _ = _, N : nth_error h l = _ |- _ => rewrite (attr_at _ _ _ _ Avalue _ N B) end. cbn [bind list_at].
    match goal with B : nth_error h _ = Some (PList _) |- _ => rewrite B end. cbn. eexists. split; [reflexivity|assumption].
  - cbn in P. congruence.
Qed.
Lemma len_sim h i v : arg h i v -> h_len h i = py_len v.
Proof.
  intros [X P]. inversion X; subst; try match goal with B : False |- _ => destruct B end; try reflexivity; try (unfold h_len; rewrite H0).
  - cbn. f_equal. eapply stand_all_len. eassumption.
  - assert (K := kother c ltac:(tauto)). apply orb_false_iff in K. destruct K as [-> ->]. reflexivity.
  - assert (K := kother c ltac:(tauto)). apply orb_false_iff in K. destruct K as [-> ->]. reflexivity.
  - assert (Ec : c = CObjectID) by (apply koid; assumption). rewrite Ec. change (issubclass CObjectID CObjectID) with true. cbn iota.
    match goal with B : assoc d _ = _, N : nth_error h l = _ |- _ => rewrite (attr_at _ _ _ _ Avalue _ N B) end. reflexivity.
  - assert (Ec : c = CObjectID) by (apply koid; assumption). rewrite Ec. change (issubclass CObjectID CObjectID) with true. cbn iota.
    match goal with B : assoc d _ = _, N : nth_error h l = _ |- _ => rewrite (attr_at _ _ _ _ Avalue _ N B) end. cbn [bind list_at].
    match goal with B : nth_error h _ = Some (PList _) |- _ => rewrite B end. cbn. unfold zlen. rewrite map_length. reflexivity.
  - assert (K := kother c ltac:(tauto)). apply orb_false_iff in K. destruct K as [-> ->]. reflexivity.
  - destruct (kseq c ltac:(assumption)) as [-> ->]. match goal with B : assoc d _ = _, N : nth_error h l = _ |- _ => rewrite (attr_at _ _ _ _ Avalue _ N B) end. cbn [bind list_at].
    match goal with B : nth_error h _ = Some (PList _) |- _ => rewrite B end. cbn. f_equal. eapply stand_all_len. eassumption.
  - cbn in P. congruence.
Qed.
Lemma checks_sim h k is vs : all_now h is vs -> forall acc, rsim (fun _ l => l = acc ++ vs) (check_all h k is) (sequenceof_appends k acc vs).
Proof.
  induction 1 as [|i v is vs X Y IH]; intros acc; cbn [check_all sequenceof_appends].
  - exists tt. rewrite app_nil_r. split; reflexivity.
  - unfold sequenceof_append. rewrite (is_a_stands _ _ _ _ k X). destruct (negb (isinstance v k)); [reflexivity|]. cbn [bind].
    specialize (IH (acc ++ [v])). rewrite <- app_assoc in IH. exact IH.
Qed.
Lemma s_sequence h i v : arg h i v -> hsim now h (h_sequence CSequence i h) (construct CSequence v).
Proof.
  intros [X P]. destruct i as [|z|s|l].
  - inversion X; subst. cbn [h_sequence construct]. apply hsim_skip with (P := fun h a => exists l, a = IRef l /\ nth_error h l = Some (PList [])).
    + apply hsim_new. exists (length h). split; [reflexivity|apply nth_new].
    + intros t a (l & -> & N). apply hsim_new. eapply now_new_seq; [reflexivity|reflexivity|exact N|constructor].
  - inversion X; subst. apply hsim_err.
  - inversion X; subst. apply hsim_err.
  - destruct (now_in _ _ _ X) as (cl & N). cbn [h_sequence]. unfold hbind at 1, rd. cbn [list_at]. rewrite N.
    inversion X; subst; try match goal with B : False |- _ => destruct B end; match goal with B : nth_error h l = Some _ |- _ => rewrite N in B; injection B as -> end; cbn [construct]; try apply hsim_err.
    apply hsim_new. eapply now_new_seq; [reflexivity|reflexivity|exact N|assumption].
Qed.
Lemma s_sequenceof h c k i v : kind_of c = KSeq -> arg h i v -> hsim now h (h_sequenceof c k i h) (sequenceof_init c k v).
Proof.
  intros K A. unfold h_sequenceof, sequenceof_init. pose proof (elems_sim h i v A) as E.
  assert (T : h_truthy h i = Ok (truthy v)) by (destruct A; eapply truthy_stands; eassumption).
  assert (F : forall h is vs, all_now h is vs -> hsim now h ((v <== new (PList is) ;; new (PObj c [(Avalue, v)])) h) (Ok (VSeq c vs))).
  { clear - K. intros h is vs X. apply hsim_skip with (P := fun h a => exists l, a = IRef l /\ nth_error h l = Some (PList is) /\ all_now h is vs).
    - apply hsim_new. exists (length h). split; [reflexivity|]. split; [apply nth_new|apply all_now_ext; exact X].
    - intros t a (l & -> & N & Y). apply hsim_new. eapply now_new_seq; [exact K|reflexivity|exact N|exact Y]. }
  destruct (truthy v) eqn:Tv.
  - destruct (py_iter v) as [vs|e]; cbn [rsim] in E.
    + destruct E as (is & Ei & X). cbn [bind]. eapply hsim_bind with (R := fun h is l => all_now h is l).
      * apply hsim_rd. rewrite T, Ei. cbn [bind]. pose proof (checks_sim h k is vs X []) as Cs. destruct (sequenceof_appends k [] vs) as [l|e]; cbn [rsim] in Cs.
        -- destruct Cs as ([] & -> & ->). exists is. split; [reflexivity|exact X].
        -- rewrite Cs. reflexivity.
      * intros t a b Xa. apply F. exact Xa.
    + cbn [bind]. unfold hbind at 1, rd. rewrite T, E. cbn [bind]. apply hsim_err.
  - unfold hbind at 1, rd. rewrite T. cbn [bind]. apply F. constructor.
Qed.
Lemma s_varbind h c n nv i v : kind_of c = KSeq -> arg h n nv -> arg h i v -> hsim now h (h_varbind c n i h) (varbind_init c nv v).
Proof.
  intros K A B. unfold h_varbind, varbind_init.
  assert (T : h_truthy h n = Ok (truthy nv)) by (destruct A; eapply truthy_stands; eassumption).
  assert (U : h_truthy h i = Ok (truthy v)) by (destruct B; eapply truthy_stands; eassumption).
  assert (Tc : is_a h n CObjectID = isinstance nv CObjectID) by (destruct A; eapply is_a_stands; eassumption).
  assert (Uc : is_a h i CAsn1Object = is_asn1 v) by (destruct B; eapply is_a_stands; eassumption).
  unfold hbind at 1, rd. rewrite T. cbn [bind]. rewrite Tc. destruct (truthy nv && negb (isinstance nv CObjectID)); [apply hsim_err|]. 
  unfold hbind at 1. rewrite U. cbn [bind]. rewrite Uc. destruct (truthy v && negb (is_asn1 v)); [apply hsim_err|].
  assert (Z : all_now h [n; i] [nv; v]) by (destruct A, B; repeat constructor; assumption).
  apply hsim_skip with (P := fun h a => exists l, a = IRef l /\ nth_error h l = Some (PList [n; i]) /\ all_now h [n; i] [nv; v]).
  - apply hsim_new. exists (length h). split; [reflexivity|]. split; [apply nth_new|apply all_now_ext; exact Z].
  - intros t a (l & -> & N & Y). apply hsim_new. eapply now_new_seq; [exact K|reflexivity|exact N|exact Y].
Qed.
Lemma s_varbindlist h i v : arg h i v -> hsim now h (h_varbindlist i h) (varbindlist_init v).
Proof. intros A. apply s_sequenceof; [reflexivity|exact A]. Qed.
Lemma s_varbindlist2 h i v : arg h i v -> hsim now h (h_varbindlist2 i h) (varbindlist_v2_init v).
Proof.
  intros A. unfold h_varbindlist2, varbindlist_v2_init. eapply hsim_bind with (R := fun _ a b => a = b).
  - apply hsim_rd. rewrite (len_sim _ _ _ A). destruct (py_len v); [eexists; split; reflexivity|reflexivity].
  - intros t a b <-. destruct (max_bindings <? a); [apply hsim_err|]. apply s_sequenceof; [reflexivity|apply arg_ext; exact A].
Qed.
(** PDUs: besides the value, the attribute requestID is the first of the components. *)
Definition pdu_now (h : heap) (i : item) (v : val) : Prop :=
  now h i v /\ plain v /\ exists c r k z rest, v = VSeq c (VInt k z :: rest) /\ attr_of h i ArequestID = Ok r /\ now h r (VInt k z).
Lemma attr_ext h t i a x : attr_of h i a = Ok x -> attr_of (h ++ t) i a = Ok x.
Proof.
  unfold attr_of. destruct i; try discriminate. destruct (nth_error h l) eqn:N; [|discriminate]. rewrite (nth_ext _ t _ _ N). auto.
Qed.
Lemma s_four h c r k z a2 a3 a4 v2 v3 v4 n2 n3 n4 : kind_of c = KSeq -> all_now h [r; a2; a3; a4] [VInt k z; v2; v3; v4] -> n2 <> Avalue -> n3 <> Avalue -> n4 <> Avalue ->
  hsim pdu_now h ((l <== new (PList [r; a2; a3; a4]) ;; new (PObj c [(ArequestID, r); (n2, a2); (n3, a3); (n4, a4); (Avalue, l)])) h) (Ok (VSeq c [VInt k z; v2; v3; v4])).
Proof.
  intros K X N2 N3 N4. apply hsim_skip with (P := fun h a => exists l, a = IRef l /\ nth_error h l = Some (PList [r; a2; a3; a4]) /\ all_now h [r; a2; a3; a4] [VInt k z; v2; v3; v4]).
  - apply hsim_new. exists (length h). split; [reflexivity|]. split; [apply nth_new|apply all_now_ext; exact X].
  - intros t a (l & -> & N & Y). apply hsim_new. split; [|split].
    + eapply now_new_seq; [exact K| |exact N|exact Y]. cbn. destruct n2, n3, n4; try reflexivity; congruence.
    + exact K.
    + exists c, r, k, z, [v2; v3; v4]. split; [reflexivity|]. split; [eapply attr_at; [apply nth_new|reflexivity]|]. apply now_ext. inversion Y; subst. assumption.
Qed.
Lemma int_shape c v w : integer_init c v = Ok w -> exists z, w = VInt c z.
Proof. unfold integer_init. destruct v; try discriminate. destruct (_ && _); [|discriminate]. intros [= <-]. eauto. Qed.
Lemma hsim_eq {A B} (R : heap -> A -> B -> Prop) h x y : hsim R h x y -> hsim (fun h a b => R h a b /\ y = Ok b) h x y.
Proof. intros (t & E & X). exists t. split; [exact E|]. destruct y as [b|]; [|exact X]. destruct X as (a & Ea & Ra). exists a. auto. Qed.
Lemma s_pdu1 h c i v l lv : kind_of c = KSeq -> now h i v -> arg h l lv -> hsim pdu_now h (h_pdu1 c i (IInt 0) (IInt 0) l h) (pdu_v1_init c v (VPyInt 0) (VPyInt 0) lv).
Proof.
  intros K X L. unfold h_pdu1, pdu_v1_init.
  eapply hsim_bind; [apply hsim_eq, s_integer; [reflexivity|exact X]|]. intros t1 r rv [Rr Er]. destruct (int_shape _ _ _ Er) as (z & ->).
  eapply hsim_bind; [apply s_int; reflexivity|]. intros t2 e ev Re. eapply hsim_bind; [apply s_int; reflexivity|]. intros t3 x xv Rx.
  eapply hsim_bind; [apply s_varbindlist; repeat apply arg_ext; exact L|]. intros t4 y yv Ry.
  apply s_four; try exact K; try discriminate. repeat constructor; repeat (exact Ry || exact Rx || exact Re || exact Rr || apply now_ext).
Qed.
Lemma s_not_above h i v : now h i v -> forall {A B} (R : heap -> A -> B -> Prop) (f : H A) (g : res B), hsim R h (f h) g ->
  hsim R h ((_ <== hlift (not_above i) ;; f) h) (big <- gt_max_bindings v ;; if (big : bool) then Err ValueError else g).
Proof.
  intros X A B R f g F. inversion X; subst; try match goal with Z : False |- _ => destruct Z end; try apply hsim_err.
  cbn [not_above gt_max_bindings bind]. unfold hbind at 1, hlift. destruct (max_bindings <? z); [apply hsim_err|exact F].
Qed.
Lemma now_default h k : defaults_ok h -> (k < 5)%nat -> arg h (IRef k) (VPyList []).
Proof. intros D L. split; [|exact Logic.I]. eapply st_list; [trivial|apply D; exact L|constructor]. Qed.
Lemma s_pdu2 h c i v l lv : defaults_ok h -> kind_of c = KSeq -> now h i v -> arg h l lv -> hsim pdu_now h (h_pdu2 c i (IInt 0) (IInt 0) l h) (pdu_v2_init c v (VPyInt 0) (VPyInt 0) lv).
Proof.
  intros D K X L. unfold h_pdu2, pdu_v2_init. apply hsim_skip with (P := fun _ _ => True).
  - pose proof (s_pdu1 h c (IInt 0) (VPyInt 0) default_pdu (VPyList []) K ltac:(constructor) ltac:(apply now_default; [exact D|lia])) as (t & E & a & Ea & _).
    exists t. split; [exact E|]. exists a. auto.
  - intros t0 _ _. apply s_not_above; [constructor|]. 
    eapply hsim_bind; [apply hsim_eq, s_integer; [reflexivity|apply now_ext; exact X]|]. intros t1 r rv [Rr Er]. destruct (int_shape _ _ _ Er) as (z & ->).
    eapply hsim_bind; [apply s_int; reflexivity|]. intros t2 e ev Re. eapply hsim_bind; [apply s_int; reflexivity|]. intros t3 x xv Rx.
    eapply hsim_bind; [apply s_varbindlist2; repeat apply arg_ext; exact L|]. intros t4 y yv Ry.
    apply s_four; try exact K; try discriminate. repeat constructor; repeat (exact Ry || exact Rx || exact Re || exact Rr || apply now_ext).
Qed.
Lemma s_pdu h c i v l lv : defaults_ok h -> kind_of c = KSeq -> now h i v -> arg h l lv -> hsim pdu_now h (h_pdu c i (IInt 0) (IInt 0) l h) (pdu_init c v (VPyInt 0) (VPyInt 0) lv).
Proof. intros D K X L. unfold h_pdu, pdu_init. destruct (issubclass c CPDU_v2); [apply s_pdu2|apply s_pdu1]; assumption. Qed.
Lemma s_bulk h c i v l lv : kind_of c = KSeq -> now h i v -> arg h l lv -> hsim pdu_now h (h_bulk c i (IInt 0) (IInt 0) l h) (bulkpdu_init c v (VPyInt 0) (VPyInt 0) lv).
Proof.
  intros K X L. unfold h_bulk, bulkpdu_init. apply s_not_above; [constructor|]. apply s_not_above; [constructor|].
  eapply hsim_bind; [apply hsim_eq, s_integer; [reflexivity|exact X]|]. intros t1 r rv [Rr Er]. destruct (int_shape _ _ _ Er) as (z & ->).
  eapply hsim_bind; [apply s_int; reflexivity|]. intros t2 e ev Re. eapply hsim_bind; [apply s_int; reflexivity|]. intros t3 x xv Rx.
  eapply hsim_bind; [apply s_varbindlist2; repeat apply arg_ext; exact L|]. intros t4 y yv Ry.
  apply s_four; try exact K; try discriminate. repeat constructor; repeat (exact Ry || exact Rx || exact Re || exact Rr || apply now_ext).
Qed.
Lemma s_trappdu h e a g s t v e' a' g' s' t' v' : now h e e' -> now h a a' -> now h g g' -> now h s s' -> now h t t' -> now h v v' ->
  hsim now h (h_trappdu e a g s t v h) (Ok (trappdu_init e' a' g' s' t' v')).
Proof.
  intros X1 X2 X3 X4 X5 X6. assert (X : all_now h [e; a; g; s; t; v] [e'; a'; g'; s'; t'; v']) by (repeat constructor; assumption).
  unfold h_trappdu, trappdu_init. apply hsim_skip with (P := fun h q => exists l, q = IRef l /\ nth_error h l = Some (PList [e; a; g; s; t; v]) /\ all_now h [e; a; g; s; t; v] [e'; a'; g'; s'; t'; v']).
  - apply hsim_new. exists (length h). split; [reflexivity|]. split; [apply nth_new|apply all_now_ext; exact X].
  - intros t0 q (l & -> & N & Y). apply hsim_new. eapply now_new_seq; [reflexivity|reflexivity|exact N|exact Y].
Qed.
