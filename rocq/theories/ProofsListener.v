(** * Proofs about traplistener.py and trapsender.py. *)
From Coq Require Import Ascii String ZArith List Bool Lia ZifyBool ZifyNat.
From Verif Require Import PyBase Classes Values Codec Manager Text Frontend Tools.
From Verif Require Import SpecBER SpecSMI SpecTree SpecWire SpecMsg SpecManager SpecText SpecFront.
From Verif Require Import ProofsTree ProofsDecode ProofsWire ProofsMsg ProofsOid ProofsManager ProofsHistory ProofsReceive ProofsCalls ProofsRun ProofsPrint ProofsFront ProofsText.
From Verif Require Import SpecTools ProofsTools ProofsPrograms.
Import ListNotations.
Open Scope Z_scope.
Local Open Scope list_scope.

Lemma trap_off_wire strict ver com ent agent g sp ticks bs os depth :
  let pdu := trap_tree ent agent g sp ticks bs in
  wire strict (message_tree ver com pdu) os -> readable Upto1905 pdu -> (S (height pdu) <= depth)%nat ->
  exists cv v1 o0 o1 o3 o4 ps,
    message_decode (reg_of Upto1905) depth CMessage_v2 (DStr os) =
      Ok (mkMsg CMessage_v2 (VInt cv ver) v1 (VSeq CTrapPDU [o0; o1; VInt CGenericTrap g; o3; o4; VSeq CVarBindList (map (vb_pair CVarBind) ps)]) []) /\
    (made (reg_of Upto1905) o0 /\ tree_of o0 = Some (TOid ent)) /\ (made (reg_of Upto1905) o1 /\ tree_of o1 = Some (TOct KIpAddress agent)) /\
    (made (reg_of Upto1905) o3 /\ tree_of o3 = Some (TInt KInteger sp)) /\ (made (reg_of Upto1905) o4 /\ tree_of o4 = Some (TInt KTimeTicks ticks)) /\
    decoded_bindings Upto1905 ps bs.
Proof.
  intros pdu W R H. 
  destruct (interop Upto1905 _ _ _ W) as (w & Tw & D).
  { apply readable_seq. split; [|exact Logic.I]. constructor; [exact Logic.I|]. constructor; [reflexivity|]. constructor; [exact R|constructor]. }
  apply tree_seq_inv in Tw as (k & l & -> & K & _ & T).
  apply trees_inv_cons in T as (v0 & l0 & -> & T0 & T). apply trees_inv_cons in T as (v1 & l1 & -> & T1 & T).
  apply trees_inv_cons in T as (v2 & l2 & -> & T2 & T). apply trees_inv_nil in T as ->.
  apply tree_of_int in T0 as (cv & -> & _).
  assert (D' : decode (reg_of Upto1905) depth os = Ok [VSeq k [VInt cv ver; v1; v2]]).
  { apply D. pose proof (height_pos pdu). unfold message_tree. cbn [height fold_right]. lia. }
  pose proof (decode_made _ _ _ _ D') as M. inversion M as [|? ? MO _]; subst.
  assert (M2 : made (reg_of Upto1905) v2).
  { inversion MO as [w tg c' G KC NS|l' F|tg c' kr ke bl r0 e i ps|? ? ? ?|o0 o1 g' o3 o4 ps]; subst; try discriminate K.
    - exfalso. eapply NS; reflexivity.
    - inversion F as [|? ? _ F1]; subst. inversion F1 as [|? ? _ F2]; subst. inversion F2; assumption. }
  subst pdu. unfold trap_tree in T2. apply tree_of_seq in T2 as (c & l & -> & Kc & T & _).
  inversion M2 as [w tg c' G KC NS|l' F|tg c' kr ke bl r0 e i ps G DM|? ? ? ?|o0 o1 g' o3 o4 ps M0 M1 M3 M4 X Y]; subst; try discriminate Kc.
  - exfalso. eapply NS; reflexivity.
  - exfalso. destruct c; cbn in Kc; try discriminate Kc. vm_compute in DM. discriminate DM.
  - apply trees_inv_cons in T as (x & l & E & A0 & T). injection E as <- <-.
    apply trees_inv_cons in T as (x & l & E & A1 & T). injection E as <- <-.
    apply trees_inv_cons in T as (x & l & E & A2 & T). injection E as <- <-. apply tree_of_int in A2 as (? & A2 & _). injection A2 as <- ->.
    apply trees_inv_cons in T as (x & l & E & A3 & T). injection E as <- <-.
    apply trees_inv_cons in T as (x & l & E & A4 & T). injection E as <- <-.
    apply trees_inv_cons in T as (x & l & E & A5 & T). injection E as <- <-. apply tree_of_seq in A5 as (? & ? & E & _ & A5 & _). injection E as <- <-.
    exists cv, v1, o0, o1, o3, o4, ps. split; [unfold message_decode, decode_data; rewrite D'; reflexivity|]. repeat (split; [split; assumption|]).
    apply decoded_of_trees; assumption.
Qed.
Lemma bindings_shown tab ps bs : decoded_bindings Upto1905 ps bs -> Forall (fun b => shown (snd b) <> None) bs ->
  show_bindings tab (map (vb_pair CVarBind) ps) = say_all (map trap_binding_line bs) (Stop (Ok tt)).
Proof.
  intros D F. induction D as [|[a w] [n v] ps bs (A & T & M) D IH]; [reflexivity|]. inversion F as [|? ? F1 F2]; subst. cbn [fst snd] in *. subst a.
  destruct (shown v) as [sv|] eqn:Sv; [|congruence]. destruct (leaf_shown w v sv tab M T Sv) as (P & _).
  cbn [map show_bindings say_all]. change (vb_pair CVarBind (VOid (Some n), w)) with (VSeq CVarBind [VOid (Some n); w]).
  change (objectID (VSeq CVarBind [VOid (Some n); w])) with (Ok (VOid (Some n))). change (objectValue (VSeq CVarBind [VOid (Some n); w])) with (Ok w). cbn [bind].
  change (py_str tab (VOid (Some n))) with (@Ok str (46 :: py_join 46 (map py_str_of_int n))). cbn [bind]. rewrite P. cbn [bind eval]. rewrite IH by assumption.
  unfold trap_binding_line. cbn [fst snd]. rewrite Sv. reflexivity.
Qed.
Lemma trap_shown shown_ tab ent agent g sp ticks bs name o0 o1 o3 o4 ps cm cv v1 vs :
  (made (reg_of Upto1905) o0 /\ tree_of o0 = Some (TOid ent)) -> (made (reg_of Upto1905) o1 /\ tree_of o1 = Some (TOct KIpAddress agent)) ->
  (made (reg_of Upto1905) o3 /\ tree_of o3 = Some (TInt KInteger sp)) -> (made (reg_of Upto1905) o4 /\ tree_of o4 = Some (TInt KTimeTicks ticks)) ->
  decoded_bindings Upto1905 ps bs -> Forall (fun b => shown (snd b) <> None) bs -> trap_name g = Some name ->
  show_trap shown_ tab (mkMsg cm cv v1 (VSeq CTrapPDU [o0; o1; VInt CGenericTrap g; o3; o4; VSeq CVarBindList (map (vb_pair CVarBind) ps)]) vs) =
  say_all (trap_line ent agent g name sp ticks :: map trap_binding_line bs) (Stop (Ok tt)).
Proof.
  intros (M0 & T0) (M1 & T1) (M3 & T3) (M4 & T4) D F N.
  destruct (leaf_shown o0 _ _ tab M0 T0 eq_refl) as (P0 & _). destruct (leaf_shown o1 _ _ tab M1 T1 eq_refl) as (P1 & _). destruct (leaf_shown o3 _ _ tab M3 T3 eq_refl) as (P3 & _).
  apply tree_of_int in T4 as (c4 & -> & _).
  unfold show_trap. cbn [m_data]. unfold trap_attr. change (issubclass CTrapPDU CTrapPDU) with true. cbv iota. cbn [nth_error bind].
  rewrite P0. cbn [bind]. rewrite P1. cbn [bind str_of_value generic_enum]. unfold generictrap_enum. rewrite trap_names, N. cbn [bind]. rewrite P3. cbn [bind eval].
  cbn [join py_iter bind eval]. rewrite (bindings_shown tab ps bs D F). reflexivity.
Qed.
(** ** The listener *)
Lemma listening_state s : listening s -> exists nx lg tab out, s = mkP (mkState (mkMgr nx [] []) [FRun Polling] lg) tab Running out.
Proof. intros (D & K & O & C). destruct s as [[[nx ob cbs] stk lg] tab d out]. cbn in *. subst. eauto. Qed.
Lemma listens_again shown_ args x m lg tab out : outbound m = [] -> callbacks m = [] ->
  goes (traplistener_py shown_) Text args (mkP (mkState m [FRun Sending] lg) tab Running out) [Answers x] (mkP (mkState m [FRun Polling] lg) tab Running out).
Proof.
  intros O C. exists [Some (Answers x)]. split; [reflexivity|]. split; [|exact Logic.I]. cbn [psteps]. unfold pstep. cbn [step]. unfold send_called. rewrite O. reflexivity.
Qed.
Lemma listener_starts shown_ args x : exists s, runs (traplistener_py shown_) Text (Ok tt) args [Answers x] s /\ listening s /\ printed s = [] /\ sent s = [].
Proof.
  eexists. split.
  - exists [None; Some (Answers x)]. split; [reflexivity|]. split; [reflexivity|exact Logic.I].
  - repeat split.
Qed.
Lemma trap_printed shown_ args s strict ver com ent agent g sp ticks bs os depth src name x :
  let pdu := trap_tree ent agent g sp ticks bs in
  listening s -> wire strict (message_tree ver com pdu) os -> readable Upto1905 pdu -> (S (height pdu) <= depth)%nat -> ver = 0 \/ ver = 1 ->
  trap_name g = Some name -> Forall (fun b => shown (snd b) <> None) bs ->
  exists s', goes (traplistener_py shown_) Text args s [Finds (Datagram depth os src); Answers x] s' /\ listening s' /\
    printed s' = printed s ++ trap_line ent agent g name sp ticks :: map trap_binding_line bs /\ sent s' = sent s.
Proof.
  intros pdu Li W R H V N F. destruct (trap_off_wire _ _ _ _ _ _ _ _ _ _ _ W R H) as (cv & v1 & o0 & o1 & o3 & o4 & ps & D & M0 & M1 & M3 & M4 & DB).
  destruct (listening_state _ Li) as (nx & lg & tab & out & ->).
  set (msg := mkMsg _ _ _ _ _) in D.
  set (tab' := touches (traplistener_py shown_) Text tab (Datagram depth os src)).
  set (lines := trap_line ent agent g name sp ticks :: map trap_binding_line bs).
  set (lg' := lg ++ [EInvokeTrap 2 msg]).
  assert (S1 : pstep (traplistener_py shown_) Text args (mkP (mkState (mkMgr nx [] []) [FRun Polling] lg) tab Running out) (Some (Finds (Datagram depth os src))) =
    Some (mkP (mkState (mkMgr nx [] []) [FTrap; FRead; FRun Polling] lg') tab' (Own (say_all lines (Stop (Ok tt)))) out)).
  { unfold pstep. cbn [step poll_called stack]. unfold receive_called, receiveData. cbn [system_of flav imports trans received message_class p_flavour traplistener_py]. rewrite D.
    assert (DI : dispatch (system_of (traplistener_py shown_) Text) (mkMgr nx [] []) msg = InvokeTrap 2).
    { unfold dispatch. cbn [msg m_version m_data py_eq flav isinstance class_of system_of p_flavour traplistener_py]. destruct V as [-> | ->]; reflexivity. }
    rewrite DI. unfold resume. cbn [stack log]. rewrite rev_app_distr. cbn [rev app].
    cbn [p_trap traplistener_py]. fold tab'. unfold msg. rewrite (trap_shown shown_ tab' ent agent g sp ticks bs name o0 o1 o3 o4 ps CMessage_v2 (VInt cv ver) v1 []) by assumption. reflexivity. }
  assert (P : psteps (traplistener_py shown_) Text args (mkP (mkState (mkMgr nx [] []) [FRun Polling] lg) tab Running out) (Some (Finds (Datagram depth os src)) :: repeat None (length lines)) =
    Some (mkP (mkState (mkMgr nx [] []) [FTrap; FRead; FRun Polling] lg') tab' (Own (Stop (Ok tt))) (out ++ lines))).
  { cbn [psteps]. rewrite S1. apply say_runs. }
  assert (G : goes (traplistener_py shown_) Text args (mkP (mkState (mkMgr nx [] []) [FRun Polling] lg) tab Running out) [Finds (Datagram depth os src)]
    (mkP (mkState (mkMgr nx [] []) [FRun Sending] lg') tab' Running (out ++ lines))).
  { exists ((Some (Finds (Datagram depth os src)) :: repeat None (length lines)) ++ [None]). split; [|split; [|exact Logic.I]].
    - rewrite outsides_app. change (outsides (?a :: ?b)) with (outsides [a] ++ outsides b). rewrite outsides_none. reflexivity.
    - rewrite (psteps_app _ _ _ _ _ _ _ P). reflexivity. }
  eexists. split; [|split; [|split]].
  - change [Finds (Datagram depth os src); Answers x] with ([Finds (Datagram depth os src)] ++ [Answers x]). eapply goes_trans; [exact G|]. apply listens_again; reflexivity.
  - repeat split.
  - reflexivity.
  - unfold sent, sends. cbn [st_of log]. unfold lg'. rewrite flat_map_app. cbn. rewrite app_nil_r. reflexivity.
Qed.
(** It survives whatever is not a socket error. *)
Fixpoint tail (k : script) : list str * script := match k with Say l k => let '(a, b) := tail k in (l :: a, b) | _ => ([], k) end.
Lemma tail_say k : k = say_all (fst (tail k)) (snd (tail k)).
Proof. induction k as [l k IH|a k|r]; try reflexivity. cbn [tail]. destruct (tail k) as [a b]. cbn [fst snd say_all] in *. congruence. Qed.
Definition fine {A} (r : res A) : Prop := r <> Err SystemExit.
Lemma fine_ok {A} (a : A) : fine (Ok a). Proof. discriminate. Qed.
Lemma fine_bind {A B} (x : res A) (k : A -> res B) : fine x -> (forall a, fine (k a)) -> fine (bind x k).
Proof. intros F G. destruct x as [a|e]; cbn; [apply G|]. intros X. apply F. congruence. Qed.
Lemma py_str_fine tab v : fine (py_str tab v).
Proof.
  induction v using val_ind'; try discriminate.
  - cbn [py_str]. unfold int_str. destruct c; try discriminate; destruct (tbl_get _ _); discriminate.
  - cbn [py_str]. destruct v; try discriminate. destruct (issubclass c CIPAddress); discriminate.
  - rewrite py_str_seq. apply fine_bind; [|discriminate].
    match goal with X : Forall _ l |- _ => induction X as [|x l Hx _ IH] end; [discriminate|]. cbn [str_list]. apply fine_bind; [exact Hx|]. intros a. apply fine_bind; [exact IH|discriminate].
Qed.
Lemma attr_fine c n v : fine (match v with VSeq c' l => if issubclass c' c then match nth_error l n with Some x => Ok x | None => Err AttributeError end else Err AttributeError | _ => @Err val AttributeError end).
Proof. destruct v; try discriminate. destruct (issubclass _ _); [|discriminate]. destruct (nth_error _ _); discriminate. Qed.
Lemma trap_attr_fine n v : fine (trap_attr n v). Proof. apply attr_fine. Qed.
Lemma str_of_value_fine shown_ v : fine (str_of_value shown_ v).
Proof. destruct v as [| | | | |c w|[l|]| |]; try discriminate. destruct w; discriminate. Qed.
Definition harmless (k : script) : Prop := exists r, snd (tail k) = Stop r /\ fine r.
Lemma harmless_stop {A} (r : res A) k : fine r -> (forall a, r = Ok a -> harmless (k a)) -> harmless (eval r k).
Proof. intros F G. destruct r as [a|e]; cbn [eval]; [apply G; reflexivity|]. exists (Err e). split; [reflexivity|]. intros X. injection X as ->. apply F. reflexivity. Qed.
Lemma harmless_say l k : harmless k -> harmless (Say l k).
Proof. intros (r & E & F). exists r. split; [|exact F]. cbn [tail]. destruct (tail k) as [a b]. exact E. Qed.
Lemma show_trap_harmless shown_ tab msg : harmless (show_trap shown_ tab msg).
Proof.
  unfold show_trap. apply harmless_stop.
  - repeat (apply fine_bind; [apply fine_bind; [apply trap_attr_fine|intros; try apply py_str_fine; try apply str_of_value_fine]|intros]); try discriminate.
    destruct a2; try discriminate. unfold generic_enum, generictrap_enum. destruct c; try discriminate. destruct (tbl_get _ _); discriminate.
  - intros front _. apply harmless_say, harmless_stop; [apply fine_bind; [apply trap_attr_fine|]; intros x; unfold py_iter; destruct x as [| | | | | |[|]| |]; discriminate|].
    intros items _. induction items as [|vb items IH]; [exists (Ok tt); split; [reflexivity|discriminate]|]. cbn [show_bindings]. apply harmless_stop.
    + apply fine_bind; [apply attr_fine|]. intros n. apply fine_bind; [apply attr_fine|]. intros v. apply fine_bind; [apply py_str_fine|]. intros a. apply fine_bind; [apply py_str_fine|discriminate].
    + intros s _. apply harmless_say, IH.
Qed.
Lemma survives shown_ args s i x : listening s -> (forall e, i <> SocketError e) ->
  exists s', goes (traplistener_py shown_) Text args s [Finds i; Answers x] s' /\ listening s' /\ sent s' = sent s /\ exists more, printed s' = printed s ++ more.
Proof.
  intros Li N. destruct (listening_state _ Li) as (nx & lg & tab & out & ->).
  enough (G : exists lg' tab' more, goes (traplistener_py shown_) Text args (mkP (mkState (mkMgr nx [] []) [FRun Polling] lg) tab Running out) [Finds i]
     (mkP (mkState (mkMgr nx [] []) [FRun Sending] lg') tab' Running (out ++ more)) /\ sends lg' = sends lg).
  { destruct G as (lg' & tab' & more & G & S). eexists. split; [|split; [|split]].
    - change [Finds i; Answers x] with ([Finds i] ++ [Answers x]). eapply goes_trans; [exact G|]. apply listens_again; reflexivity.
    - repeat split.
    - exact S.
    - exists more. reflexivity. }
  destruct i as [|depth os src|e]; [| |exfalso; eapply N; reflexivity].
  - exists lg, tab, []. rewrite app_nil_r. split; [|reflexivity]. exists [Some (Finds Nothing)]. split; [reflexivity|]. split; [reflexivity|exact Logic.I].
  - destruct (receiveData (system_of (traplistener_py shown_) Text) (mkMgr nx [] []) depth (DStr os)) as [a om] eqn:R. destruct a as [r|id n|n].
    + destruct (receive_decent _ _ _ _ _ _ R) as [->|(F & _)]; [|elim F; reflexivity].
      exists lg, (touches (traplistener_py shown_) Text tab (Datagram depth os src)), []. rewrite app_nil_r. split; [|reflexivity].
      exists [Some (Finds (Datagram depth os src))]. split; [reflexivity|]. split; [|exact Logic.I]. cbn [psteps]. unfold pstep. cbn [step poll_called stack]. unfold receive_called.
      change (received (trans (system_of (traplistener_py shown_) Text)) os) with (DStr os). rewrite R. reflexivity.
    + exfalso. unfold receiveData in R. destruct (message_decode _ _ _ _) as [msg|]; [|discriminate R].
      assert (X : dispatch (system_of (traplistener_py shown_) Text) (mkMgr nx [] []) msg = InvokeResponse id n) by (destruct (dispatch (system_of (traplistener_py shown_) Text) (mkMgr nx [] []) msg); congruence).
      unfold dispatch in X. destruct (py_eq_int (m_version msg) 0) as (b0 & E0). destruct (py_eq_int (m_version msg) 1) as (b1 & E1). rewrite E0, E1 in X.
      unfold trap_action, response_action in X. cbn [flav trapCallback system_of p_flavour traplistener_py p_trapCallback callbacks dict_get] in X.
      destruct b0, b1; repeat match type of X with (if ?b then _ else _) = _ => destruct b end; try discriminate X;
      (destruct (requestID_of (m_data msg)) as [r|]; [|discriminate X]); (destruct (py_int r) as [z|]; discriminate X).
    + destruct om as [msg|]; [|destruct (receiveData_msg _ _ _ _ _ _ R eq_refl); discriminate].
      set (tab' := touches (traplistener_py shown_) Text tab (Datagram depth os src)).
      destruct (show_trap_harmless shown_ tab' msg) as (r & T & F). pose proof (tail_say (show_trap shown_ tab' msg)) as TS. rewrite T in TS. set (lines := fst (tail (show_trap shown_ tab' msg))) in *.
      exists (lg ++ [EInvokeTrap n msg]), tab', lines. split; [|unfold sends; rewrite flat_map_app; cbn; rewrite app_nil_r; reflexivity].
      assert (S1 : pstep (traplistener_py shown_) Text args (mkP (mkState (mkMgr nx [] []) [FRun Polling] lg) tab Running out) (Some (Finds (Datagram depth os src))) =
        Some (mkP (mkState (mkMgr nx [] []) [FTrap; FRead; FRun Polling] (lg ++ [EInvokeTrap n msg])) tab' (Own (say_all lines (Stop r))) out)).
      { unfold pstep. cbn [step poll_called stack]. unfold receive_called. change (received (trans (system_of (traplistener_py shown_) Text)) os) with (DStr os). rewrite R.
        unfold resume. cbn [stack log]. rewrite rev_app_distr. cbn [rev app p_trap traplistener_py]. fold tab'. rewrite TS. reflexivity. }
      exists ((Some (Finds (Datagram depth os src)) :: repeat None (length lines)) ++ [None]). split; [|split; [|exact Logic.I]].
      * rewrite outsides_app. change (outsides (?a :: ?b)) with (outsides [a] ++ outsides b). rewrite outsides_none. reflexivity.
      * erewrite psteps_app; [|cbn [psteps]; rewrite S1; apply say_runs]. cbn [psteps]. unfold pstep. cbn [stack].
        destruct r as [[]|e]; [reflexivity|]. cbn [step system_of flav p_flavour traplistener_py].
        assert (E : guard FV2 (Err e) = Ok tt) by (destruct e; try reflexivity; elim F; reflexivity). rewrite E. reflexivity.
Qed.
Lemma listener_socket_error shown_ args s e : listening s -> exists s', goes (traplistener_py shown_) Text args s [Finds (SocketError e)] s' /\ ended s' e (printed s) (sent s).
Proof.
  intros Li. destruct (listening_state _ Li) as (nx & lg & tab & out & ->). assert (AR : asyncore_read (Err e) = Err e) by (destruct e; reflexivity).
  eexists. split.
  - exists [Some (Finds (SocketError e))]. split; [reflexivity|]. split.
    + cbn [psteps]. unfold pstep. cbn [step poll_called stack]. rewrite AR.
      assert (PR : poll_returns (system_of (traplistener_py shown_) Text) (mkMgr nx [] []) (Err e) [FRun Polling] lg = run_raises (mkMgr nx [] []) e [] lg) by (destruct e; reflexivity).
      rewrite PR. unfold run_raises, resume. cbn [stack log]. rewrite rev_app_distr. cbn [rev app]. reflexivity.
    + exact Logic.I.
  - repeat split. unfold sent, sends. cbn [st_of log]. rewrite flat_map_app. cbn. rewrite app_nil_r. reflexivity.
Qed.
(** SNMPv2 notifications are not printed. *)
Lemma v2_trap_lost shown_ args s strict ver com pdu os depth src x : listening s ->
  wire strict (message_tree ver com pdu) os -> readable Upto1905 pdu -> (S (height pdu) <= depth)%nat -> top_kind pdu <> KTrapV1 ->
  exists s', goes (traplistener_py shown_) Text args s [Finds (Datagram depth os src); Answers x] s' /\ listening s' /\ printed s' = printed s.
Proof.
  intros Li W R H K. destruct (listening_state _ Li) as (nx & lg & tab & out & ->).
  destruct (receive_message (system_of (traplistener_py shown_) Text) (mkMgr nx [] []) strict ver com pdu os) as (msg & _ & _ & _ & _ & E); [cbn; auto|exact W|exact R|].
  specialize (E depth H).
  assert (X : exists om, receiveData (system_of (traplistener_py shown_) Text) (mkMgr nx [] []) depth (DStr os) = (Done (Ok tt), om)).
  { rewrite E. cbn [system_of flav p_flavour traplistener_py]. unfold reaction_to.
    assert (RA : match response_action (mkMgr nx [] []) (m_data msg) with Done r => Done (guard FV2 r) | a => a end = Done (Ok tt)).
    { unfold response_action. cbn [callbacks dict_get]. destruct (requestID_of (m_data msg)) as [r|e] eqn:RQ.
      - destruct (py_int r) as [z|e] eqn:PI; [reflexivity|]. pose proof (py_int_decent _ _ PI) as [_ De]. destruct e; try reflexivity. elim De; reflexivity.
      - unfold requestID_of in RQ. destruct (m_data msg) as [| | | | | | | |c [|]]; try discriminate RQ; injection RQ as <-; reflexivity. }
    unfold plain_reaction. destruct ((ver =? 0) || (ver =? 1)); [|eauto]. destruct (request_kind (top_kind pdu)); [rewrite RA; eauto|].
    destruct (top_kind pdu); try congruence; eauto. }
  destruct X as (om & X). eexists. split; [|split].
  - change [Finds (Datagram depth os src); Answers x] with ([Finds (Datagram depth os src)] ++ [Answers x]).
    eapply goes_trans; [|apply (listens_again shown_ args x (mkMgr nx [] []) lg (touches (traplistener_py shown_) Text tab (Datagram depth os src)) out); reflexivity].
    exists [Some (Finds (Datagram depth os src))]. split; [reflexivity|]. split; [|exact Logic.I]. cbn [psteps]. unfold pstep. cbn [step poll_called stack]. unfold receive_called.
    change (received (trans (system_of (traplistener_py shown_) Text)) os) with (DStr os). rewrite X. reflexivity.
  - repeat split.
  - reflexivity.
Qed.
(** ** trapsender.py, snmpget-v1.py, snmpget-v2.py *)
Lemma sender_ends t now uptime args x : exists s, runs (trapsender_py now uptime) t (Ok tt) args [Answers x] s /\ ended s AttributeError [] [].
Proof.
  eexists. split.
  - exists [None; Some (Answers x); None]. split; [reflexivity|]. split; [reflexivity|exact Logic.I].
  - repeat split.
Qed.
Lemma interface_refused p t b args : p_interface p = NotTuple -> exists s, runs p t b args [] s /\ ended s TypeError [] [].
Proof.
  intros I. eexists. split.
  - exists []. split; [reflexivity|]. split; [unfold start; rewrite I; reflexivity|exact Logic.I].
  - repeat split.
Qed.
