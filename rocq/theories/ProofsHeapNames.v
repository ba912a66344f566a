(** * The named attributes of received objects *)
From Coq Require Import ZArith List Bool Lia.
From Verif Require Import PyBase Classes Values Codec Manager Heap SpecHeap ProofsHeap ProofsHeapKeep ProofsHeapCall ProofsHeapRun ProofsHeapMake ProofsHeapValue ProofsHeapRecv.
Import ListNotations.
Open Scope Z_scope.

Lemma well_named_ext h t c : well_named h c -> well_named (h ++ t) c.
Proof. destruct c as [|k d]; cbn; [auto|]. intros X K. destruct (X K) as (a & is & A & N & P). exists a, is. split; [exact A|]. split; [apply nth_ext; exact N|exact P]. Qed.
Lemma all_named_ext h t l : Forall (well_named h) l -> Forall (well_named (h ++ t)) l.
Proof. intros F. eapply Forall_impl; [|exact F]. intros c. apply well_named_ext. Qed.
Lemma parts_made c is v : parts_named c (combine (attr_names c) is ++ [(Avalue, v)]) is.
Proof.
  unfold parts_named. split; [|split; [|split]]; intros S; destruct c; try discriminate S; clear S;
    (match goal with |- context [attr_names ?c] => let r := eval vm_compute in (attr_names c) in change (attr_names c) with r end);
    do 6 (try destruct is as [|? is]); repeat split.
Qed.
Definition names_made (x : H item) (h : heap) : Prop := forall h' i, x h = (h', Ok i) -> exists t, h' = h ++ t /\ Forall (well_named (h ++ t)) t.
Lemma names_value_made : forall v h, fit v = true -> names_made (h_make v) h.
Proof.
  fix IH 1. intros v h F0 h' i E.
  assert (ALL : forall l, (forall x, In x l -> forall h, fit x = true -> names_made (h_make x) h) -> forallb fit l = true -> forall h h' is, h_makes l h = (h', Ok is) -> exists t, h' = h ++ t /\ Forall (well_named (h ++ t)) t).
  { clear. induction l as [|x l IHl]; intros Hx Fl h h' is E; cbn [h_makes] in E; unfold hbind, hret in E; [injection E as <- <-; exists []; rewrite app_nil_r; split; [reflexivity|constructor]|].
    cbn [forallb] in Fl. apply andb_prop in Fl as [Fx Fl].
    destruct (h_make x h) as [h1 [y|]] eqn:E1; [|discriminate]. destruct (h_makes l h1) as [h2 [ys|]] eqn:E2; [|discriminate]. injection E as <- <-.
    destruct (Hx x (or_introl eq_refl) h Fx h1 y E1) as (t & -> & F). destruct (IHl (fun y J => Hx y (or_intror J)) Fl _ _ _ E2) as (t2 & -> & F2).
    exists (t ++ t2). rewrite app_assoc. split; [reflexivity|]. apply Forall_app. split; [apply all_named_ext; exact F|exact F2]. }
  assert (One : forall h c, well_named (h ++ [c]) c -> Forall (well_named (h ++ [c])) [c]) by (intros; constructor; [assumption|constructor]).
  assert (Oth : forall h c d k, kind_of c = k -> k <> KSeq -> well_named h (PObj c d)) by (intros h0 c0 d k K N K'; congruence).
  destruct v as [|z|s|l|c z|c w|[zs|]|c|c l]; cbn [h_make] in E; rewrite ?makes_go in E; unfold hbind, hret, new in E; cbn [fit] in F0.
  - injection E as <- <-. exists []. rewrite app_nil_r. split; [reflexivity|constructor].
  - injection E as <- <-. exists []. rewrite app_nil_r. split; [reflexivity|constructor].
  - injection E as <- <-. exists []. rewrite app_nil_r. split; [reflexivity|constructor].
  - destruct (h_makes l h) as [h1 [is|]] eqn:E1; [|discriminate]. injection E as <- <-. destruct (ALL l) with (3 := E1) as (t & -> & F).
    { clear - IH. induction l as [|y l IHl]; intros x J; [destruct J|]. destruct J as [<-|J]; [apply IH|apply IHl; exact J]. }
    { exact F0. }
    exists (t ++ [PList is]). rewrite app_assoc. split; [reflexivity|]. apply Forall_app. split; [apply all_named_ext; exact F|apply One; exact Logic.I].
  - apply kind_eqb_eq in F0. injection E as <- <-. exists [PObj c [(Avalue, IInt z)]]. split; [reflexivity|]. apply One. eapply Oth; [exact F0|discriminate].
  - apply andb_prop in F0 as [K Fw]. apply kind_eqb_eq in K. destruct (h_make w h) as [h1 [a|]] eqn:E1; [|discriminate]. injection E as <- <-. destruct (IH w h Fw _ _ E1) as (t & -> & F).
    exists (t ++ [PObj c [(Avalue, a)]]). rewrite app_assoc. split; [reflexivity|]. apply Forall_app. split; [apply all_named_ext; exact F|apply One; eapply Oth; [exact K|discriminate]].
  - injection E as <- <-. exists ([PList (map IInt zs)] ++ [PObj CObjectID [(Avalue, IRef (length h))]]). rewrite app_assoc. split; [reflexivity|]. apply Forall_app. split; [constructor; [exact Logic.I|constructor]|].
    constructor; [|constructor]. eapply Oth; [reflexivity|discriminate].
  - injection E as <- <-. eexists [_]. split; [reflexivity|]. apply One. eapply Oth; [reflexivity|discriminate].
  - apply kind_eqb_eq in F0. injection E as <- <-. eexists [_]. split; [reflexivity|]. apply One. eapply Oth; [exact F0|discriminate].
  - apply andb_prop in F0 as [F0 _]. apply andb_prop in F0 as [K Fl]. destruct (h_makes l h) as [h1 [is|]] eqn:E1; [|discriminate]. injection E as <- <-. destruct (ALL l) with (3 := E1) as (t & -> & F).
    { clear - IH. induction l as [|y l IHl]; intros x J; [destruct J|]. destruct J as [<-|J]; [apply IH|apply IHl; exact J]. }
    { exact Fl. }
    exists (t ++ [PList is] ++ [PObj c (combine (attr_names c) is ++ [(Avalue, IRef (length (h ++ t)))])]). rewrite !app_assoc. split; [reflexivity|].
    apply Forall_app. split; [apply Forall_app; split|].
    + apply all_named_ext, all_named_ext. exact F.
    + constructor; [exact Logic.I|constructor].
    + constructor; [|constructor]. intros _. exists (length (h ++ t)), is. split; [rewrite assoc_app by apply names_value; reflexivity|]. split; [apply nth_ext; rewrite nth_error_app2, Nat.sub_diag by lia; reflexivity|apply parts_made].
Qed.
Lemma names_message msg h h' i : kind_of (m_cls msg) = KMsg -> fit (m_version msg) = true -> fit (m_community msg) = true -> fit (m_data msg) = true -> h_make_message msg h = (h', Ok i) ->
  exists t, h' = h ++ t /\ Forall (well_named (h ++ t)) t.
Proof.
  intros K F1 F2 F3 E. unfold h_make_message, hbind, new in E.
  destruct (h_make (m_version msg) (h ++ [PList []])) as [h1 [v|]] eqn:E1; [|discriminate]. destruct (names_value_made _ _ F1 _ _ E1) as (t1 & -> & N1).
  destruct (h_make (m_community msg) _) as [h2 [c|]] eqn:E2; [|discriminate]. destruct (names_value_made _ _ F2 _ _ E2) as (t2 & -> & N2).
  destruct (h_make (m_data msg) _) as [h3 [d|]] eqn:E3; [|discriminate]. destruct (names_value_made _ _ F3 _ _ E3) as (t3 & -> & N3). injection E as <- <-.
  match goal with |- exists t, _ ++ [?c] = _ /\ _ => exists (((([PList []] ++ t1) ++ t2) ++ t3) ++ [c]) end. rewrite !app_assoc. split; [reflexivity|].
  apply Forall_app; split; [apply Forall_app; split; [apply Forall_app; split; [apply Forall_app; split|]|]|].
  - constructor; [exact Logic.I|constructor].
  - do 3 apply all_named_ext. exact N1.
  - do 2 apply all_named_ext. exact N2.
  - apply all_named_ext. exact N3.
  - constructor; [|constructor]. intros K'. congruence.
Qed.
Lemma received_named sys s depth d act msg :
  Manager.receiveData sys (mkMgr (h_next s) [] (e_abs (flav sys) (hp s) (h_cbs s))) depth d = (act, Some msg) -> (forall r, act <> Done r) ->
  exists s1, gstep sys s (LReceive depth d) = Some s1 /\ forall x c, (length (hp s) <= x)%nat -> nth_error (hp s1) x = Some c -> well_named (hp s1) c.
Proof.
  intros E N. assert (Dc : message_decode (reg_of (imports sys)) depth (message_class (flav sys)) d = Ok msg).
  { unfold Manager.receiveData in E. destruct (message_decode _ _ _ d) as [m|]; [injection E as _ ->; reflexivity|discriminate]. }
  destruct (fit_message _ _ _ _ _ Dc) as (Mc & F1 & F2 & F3). assert (K : kind_of (m_cls msg) = KMsg) by (rewrite Mc; apply kind_message).
  destruct (made_message_object (length (hp s)) (hp s) msg eq_refl K F1 F2 F3) as (t & n & dd & Hm & _).
  destruct (names_message _ _ _ _ K F1 F2 F3 Hm) as (t' & Et & Nm). apply app_inv_head in Et. subst t'.
  destruct act as [r|id cb|cb]; [exfalso; eapply N; reflexivity| |]; (eexists; split; [cbn [gstep]; unfold g_receive; rewrite E, Hm; reflexivity|]; cbn; intros x c Lx Nx;
    rewrite nth_error_app2 in Nx by exact Lx; apply nth_error_In in Nx; rewrite Forall_forall in Nm; apply Nm; exact Nx).
Qed.
