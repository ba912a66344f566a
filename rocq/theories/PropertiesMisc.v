(** * C48, C50, C54: the socket life cycle, error texts, printing.  The vocabulary is in SpecRole and SpecText;
    proofs are in ProofsRole and ProofsPrint. *)
From Coq Require Import ZArith List Bool Lia String.
From Verif Require Import PyBase Classes Values Codec Role Text SpecRole SpecNumber SpecText ProofsRole ProofsNumber ProofsPrint.
Import ListNotations.
Open Scope Z_scope.
Open Scope list_scope.

(** C48. read() without a socket raises ValueError and calls nothing; with one, it reads from it and returns what it got. *)
Theorem C48_read : forall st r, role_do st (RRead r) =
  match sock (mgr_of st) with
  | None => (st, Err ValueError)
  | Some s => (mkRState (mgr_of st) (created st) (calls st ++ [SRecvfrom s (socksize (mgr_of st)) r]),
               match r with Ok (m, src) => Ok (RVData m src) | Err e => Err e end)
  end.
Proof. intros [[[s|] i z] n cs] [[m src]|e]; reflexivity. Qed.
Print Assumptions C48_read.
(** C48. send() without a socket first makes one, bound to the interface and with the receive buffer of the given size, and sends on
    that; with one, sends on it.  If opening fails, nothing is sent and the exception is raised. *)
Theorem C48_send : forall st q dst o r,
  let '(st', res) := role_do st (RSend q dst o r) in
  match sock (mgr_of st) with
  | Some s => calls st' = calls st ++ [SSendto s q dst r] /\ sock (mgr_of st') = Some s /\
              res = match r with Ok _ => Ok RVNone | Err e => Err e end
  | None =>
      match o_socket o, o_bind o, o_option o with
      | Ok _, Ok _, Ok _ =>
          let s := created st in
          calls st' = calls st ++ [SSocket s; SBind s (interface (mgr_of st)) (o_bind o); SOption s (socksize (mgr_of st)) (o_option o); SSendto s q dst r] /\
          sock (mgr_of st') = Some s /\ res = match r with Ok _ => Ok RVNone | Err e => Err e end
      | _, _, _ => (exists e, res = Err e /\ (o_socket o = Err e \/ o_bind o = Err e \/ o_option o = Err e)) /\
                   exists cs, calls st' = calls st ++ cs /\ Forall (fun c => match c with SSendto _ _ _ _ => False | _ => True end) cs
      end
  end.
Proof.
  intros [[[s|] i z] n cs] q dst [oa ob oc] r.
  - cbn. auto.
  - destruct oa as [[]|ea]; [destruct ob as [[]|eb]; [destruct oc as [[]|ec]|]|]; cbn; rewrite <- ?app_assoc; cbn [app].
    + auto.
    + split; [eauto|]. eexists; split; [reflexivity|]. repeat constructor.
    + split; [eauto|]. eexists; split; [reflexivity|]. repeat constructor.
    + split; [eauto|]. exists []. rewrite app_nil_r. split; [reflexivity|constructor].
Qed.
Print Assumptions C48_send.
(** C48. close() closes the current socket, if any, and forgets it; closing again calls nothing.  If closing fails, the
    exception is raised and the socket is still the current one. *)
Theorem C48_close : forall st r,
  let '(st', res) := role_do st (RClose r) in
  match sock (mgr_of st), r with
  | None, _ => st' = st /\ res = Ok RVNone
  | Some s, Ok _ => calls st' = calls st ++ [SClose s r] /\ sock (mgr_of st') = None /\ res = Ok RVNone /\
                    forall r', role_do st' (RClose r') = (st', Ok RVNone)
  | Some s, Err e => calls st' = calls st ++ [SClose s r] /\ sock (mgr_of st') = Some s /\ res = Err e
  end.
Proof. intros [[[s|] i z] n cs] [[]|e]; cbn; auto. Qed.
Print Assumptions C48_close.
(** C48. In every history, every bind, option, sendto, recvfrom and close works on the socket created last, and that one has not
    been closed. *)
Theorem C48_newest : forall i z ops before c after s,
  calls (role_run i z ops) = before ++ c :: after -> works_on c = Some s -> newest before = Some s /\ ~ In s (closed before).
Proof. intros i z ops b c a s E W. pose proof (all_fine_at _ (r_fine _ (rinv_run i z ops)) _ _ _ E) as F. unfold fine in F. rewrite W in F. exact F. Qed.
Print Assumptions C48_newest.
(** C48. No socket is closed twice, and only sockets that were made are closed. *)
Theorem C48_closed_once : forall i z ops, NoDup (closed (calls (role_run i z ops))) /\ incl (closed (calls (role_run i z ops))) (made (calls (role_run i z ops))).
Proof.
  intros. pose proof (rinv_run i z ops) as [_ M C N _]. split; [exact N|]. rewrite M. intros s I. rewrite Forall_forall in C. apply in_seq. specialize (C _ I). lia.
Qed.
Print Assumptions C48_closed_once.
(** C48. If open() is only called while there is no socket (send() sees to that by itself), no socket but the current one is
    ever left open; ... *)
Theorem C48_no_leak : forall i z ops, disciplined (mkRState (role_init i z) 0 []) ops ->
  left_open (calls (role_run i z ops)) = match sock (mgr_of (role_run i z ops)) with Some s => [s] | None => [] end.
Proof. exact tidy_run. Qed.
Print Assumptions C48_no_leak.
(** C48. ... but open() while there is one leaks: after a close() a socket is still open, and no further close() closes it. *)
Theorem C48_leak_refuted : forall i z, exists ops, let st := role_run i z ops in
  sock (mgr_of st) = None /\ left_open (calls st) = [0%nat] /\ forall n, role_run i z (ops ++ repeat (RClose (Ok tt)) n) = st.
Proof.
  intros i z. exists [ROpen (mkOpening (Ok tt) (Ok tt) (Ok tt)); ROpen (mkOpening (Ok tt) (Ok tt) (Ok tt)); RClose (Ok tt)].
  cbv zeta. split; [reflexivity|]. split; [reflexivity|]. intros n. unfold role_run. rewrite fold_left_app.
  induction n as [|n IH]; [reflexivity|]. exact IH.
Qed.
Print Assumptions C48_leak_refuted.
Example C48_example :
  let ops := [RSend [1] ([], 161) (mkOpening (Ok tt) (Ok tt) (Ok tt)) (Ok tt); RRead (Ok ([2], ([], 161))); RClose (Ok tt); RSend [3] ([], 161) (mkOpening (Ok tt) (Ok tt) (Ok tt)) (Err (UserExn 5))] in
  disciplined (mkRState (role_init ([], 0) 65536) 0 []) ops /\ left_open (calls (role_run ([], 0) 65536 ops)) = [1%nat] /\ closed (calls (role_run ([], 0) 65536 ops)) = [0%nat].
Proof. vm_compute. repeat split. Qed.

(** C50. After any history, str() of an ErrorStatus (SNMPv1's or SNMPv2's) with code 0..5 succeeds, with code 6..18 it succeeds iff
    some operation of the history made an SNMPv2 ErrorStatus, and with any other code it raises KeyError. *)
Theorem C50_str : forall h c z, c = CErrorStatus \/ c = CErrorStatus_v2 ->
  (has_text (v2_seen h) z /\ exists s, py_str (errs_after h) (VInt c z) = Ok (py_str_of_int z ++ text ": " ++ s)) \/
  (~ has_text (v2_seen h) z /\ py_str (errs_after h) (VInt c z) = Err KeyError).
Proof.
  intros h c z C. pose proof (errs_after_dom h z) as D. assert (E : py_str (errs_after h) (VInt c z) = match tbl_get (errs_after h) z with Some s => Ok (py_str_of_int z ++ [58; 32] ++ s) | None => Err KeyError end) by (destruct C as [-> | ->]; reflexivity).
  rewrite E. destruct (tbl_get (errs_after h) z) as [s|]; [left|right].
  - split; [apply D; eauto|]. exists s. reflexivity.
  - split; [|reflexivity]. intros T. apply D in T as [s T]. discriminate.
Qed.
Print Assumptions C50_str.
(** C50. Once it succeeds it does ever after, with the same text. *)
Theorem C50_stable : forall h h' c z s, c = CErrorStatus \/ c = CErrorStatus_v2 ->
  py_str (errs_after h) (VInt c z) = Ok s -> py_str (errs_after (h ++ h')) (VInt c z) = Ok s.
Proof.
  intros h h' c z s C E.
  assert (X : forall t, py_str t (VInt c z) = match tbl_get t z with Some s => Ok (py_str_of_int z ++ [58; 32] ++ s) | None => Err KeyError end) by (destruct C as [-> | ->]; reflexivity).
  rewrite X in *. destruct (errs_after_get h z) as (b & Hb & G), (errs_after_get (h ++ h') z) as (b' & Hb' & G'). rewrite G in E. rewrite G'. clear G G' X.
  destruct b, b'; try exact E.
  - exfalso. destruct Hb as [Hb _]. destruct (Hb eq_refl) as (o & I & O). assert (false = true) by (apply Hb'; exists o; split; [apply in_or_app; auto|exact O]). discriminate.
  - rewrite extend_get. destruct (tbl_get errString_v2 z) eqn:V; [|exact E]. exfalso.
    assert (R : 6 <= z <= 18) by (apply errString_v2_dom; eauto). destruct (tbl_get errString0 z) eqn:F; [|discriminate]. assert (0 <= z <= 5) by (apply errString0_dom; eauto). lia.
Qed.
Print Assumptions C50_stable.
(** C50. The texts. *)
Theorem C50_texts : forall h c, c = CErrorStatus \/ c = CErrorStatus_v2 ->
  py_str (errs_after h) (VInt c 0) = Ok (text "0: No Error") /\
  py_str (errs_after h) (VInt c 1) = Ok (text "1: Response message would have been too large") /\
  py_str (errs_after h) (VInt c 2) = Ok (text "2: There is no such variable name in this MIB") /\
  py_str (errs_after h) (VInt c 3) = Ok (text "3: The value given has the wrong type") /\
  py_str (errs_after h) (VInt c 4) = Ok (text "4: Object is Read Only") /\
  py_str (errs_after h) (VInt c 5) = Ok (text "5: An unknown error occurred").
Proof.
  intros h c C.
  assert (X : forall z s, py_str errString0 (VInt c z) = Ok s -> py_str (errs_after h) (VInt c z) = Ok s)
    by (intros z s H; exact (C50_stable [] h c z s C H)).
  repeat split; apply X; destruct C as [-> | ->]; reflexivity.
Qed.
Print Assumptions C50_texts.
(** C50. What makes an SNMPv2 ErrorStatus: constructing one, constructing an SNMPv2 PDU, and decoding any octets that yield an SNMPv2 PDU at any depth. *)
Theorem C50_made_by_hand : forall z h, - 2 ^ 31 <= z -> z < 2 ^ 31 -> v2_seen (OErrorStatus CErrorStatus_v2 (VPyInt z) :: h).
Proof.
  intros z h A B. exists (OErrorStatus CErrorStatus_v2 (VPyInt z)). split; [left; reflexivity|]. cbn [op_extends integer_init].
  match goal with |- context [if ?b then _ else _] => assert (b = true) as ->; [|reflexivity] end.
  rewrite andb_true_iff, !Z.leb_le. cbn. lia.
Qed.
Print Assumptions C50_made_by_hand.
Theorem C50_made_by_pdu : forall c r s i l v h, issubclass c CPDU_v2 = true -> pdu_init c r s i l = Ok v -> v2_seen (OPDU c r s i l :: h).
Proof.
  intros c r s i l v h C H. exists (OPDU c r s i l). split; [left; reflexivity|]. cbn [op_extends]. unfold pdu_reaches_status. rewrite C. cbn [andb].
  unfold pdu_init in H. rewrite C in H. unfold pdu_v2_init in H.
  destruct (gt_max_bindings i) as [[|]|]; try discriminate. cbn [bind] in H. destruct (integer_init CInteger32 r); [|discriminate]. cbn [bind] in H.
  destruct (integer_init CErrorStatus_v2 s); [reflexivity|discriminate].
Qed.
Print Assumptions C50_made_by_pdu.
Theorem C50_made_by_decoding : forall cfg depth s l y x h, decode (reg_of cfg) depth s = Ok l -> In y l -> inside x y -> isinstance x CPDU_v2 = true ->
  v2_seen (ODecode cfg depth (DStr s) :: h).
Proof. intros. eexists; split; [left; reflexivity|]. cbn. eapply touch_decode; eassumption. Qed.
Print Assumptions C50_made_by_decoding.
(** C50. A program that does not import rfc1905 never makes one by decoding, so only codes 0..5 print. *)
Theorem C50_v1_only : forall h, Forall (fun o => match o with ODecode cfg _ _ => cfg <> Upto1905 | OPrint _ => True | OErrorStatus c _ => c <> CErrorStatus_v2 | OPDU c _ _ _ _ => issubclass c CPDU_v2 = false end) h -> ~ v2_seen h.
Proof.
  intros h F (o & I & E). rewrite Forall_forall in F. specialize (F _ I). destruct o as [c v|c r s i l|cfg depth [s|s]|v]; cbn [op_extends touch_data] in *; try discriminate.
  - destruct c; try discriminate. congruence.
  - unfold pdu_reaches_status in E. rewrite F in E. discriminate.
  - rewrite touch_none in E; [discriminate|exact F].
Qed.
Print Assumptions C50_v1_only.
(** C50. ErrorStatus.enum, documented to name the code, always raises TypeError; GenericTrap.enum succeeds for 0..6 and raises KeyError otherwise. *)
Theorem C50_enum_refuted : forall v n, errorstatus_enum v n = Err TypeError.
Proof. reflexivity. Qed.
Print Assumptions C50_enum_refuted.
Theorem C50_trap_enum : forall v n, let code := match n with Some n => n | None => v end in
  (0 <= code <= 6 /\ exists s, generictrap_enum v n = Ok s) \/ (~ 0 <= code <= 6 /\ generictrap_enum v n = Err KeyError).
Proof.
  intros v n code. unfold generictrap_enum. fold code. pose proof (genericTraps_dom code) as D. destruct (tbl_get genericTraps code) as [s|].
  - left. split; [apply D; eauto|eauto].
  - right. split; [|reflexivity]. intros T. apply D in T as [s T]. discriminate.
Qed.
Print Assumptions C50_trap_enum.
Example C50_example : py_str (errs_after []) (VInt CErrorStatus 17) = Err KeyError /\
  py_str (errs_after [ODecode Upto1905 9 (DStr [162; 11; 2; 1; 1; 2; 1; 0; 2; 1; 0; 48; 0])]) (VInt CErrorStatus 17) = Ok (text "17: Not Writable") /\
  decode (reg_of Upto1905) 9 [162; 11; 2; 1; 1; 2; 1; 0; 2; 1; 0; 48; 0] =
    Ok [VSeq CResponse_v2 [VInt CInteger32 1; VInt CErrorStatus_v2 0; VInt CInteger 0; VSeq CVarBindList_v2 []]].
Proof. vm_compute. repeat split. Qed.

(** C54. Printing a received message, after any history: it succeeds iff every error status and generic trap in it has a text, and
    otherwise raises KeyError; nothing else can happen. *)
Theorem C54_print_received : forall reg depth c d m h, message_decode reg depth c d = Ok m ->
  let known := all_codes_known (v2_seen h) (m_version m) /\ all_codes_known (v2_seen h) (m_community m) /\ all_codes_known (v2_seen h) (m_data m) in
  (known /\ exists s, message_str (errs_after h) m = Ok s) \/ (~ known /\ message_str (errs_after h) m = Err KeyError).
Proof.
  intros reg depth c d m h D known. destruct (plain_message _ _ _ _ _ D) as (A & B & C).
  pose proof (print_outcome (errs_after h) (has_text (v2_seen h)) (errs_after_dom h)) as P.
  destruct (P _ A) as [[KA [sa EA]]|[NA EA]], (P _ B) as [[KB [sb EB]]|[NB EB]], (P _ C) as [[KC [sc EC]]|[NC EC]];
    unfold message_str; rewrite ?EA, ?EB, ?EC; cbn [bind];
    solve [left; split; [split; [exact KA|split; [exact KB|exact KC]]|eauto] | right; split; [intros (X & Y & Z); auto|reflexivity]].
Qed.
Print Assumptions C54_print_received.
(** C54. The same for any objects decode() returns. *)
Theorem C54_print_decoded : forall reg depth s l v h, decode reg depth s = Ok l -> In v l ->
  (all_codes_known (v2_seen h) v /\ exists t, py_str (errs_after h) v = Ok t) \/ (~ all_codes_known (v2_seen h) v /\ py_str (errs_after h) v = Err KeyError).
Proof.
  intros reg depth s l v h D I. apply (print_outcome (errs_after h) (has_text (v2_seen h)) (errs_after_dom h)).
  pose proof (plain_decode _ _ _ _ D) as P. rewrite Forall_forall in P. auto.
Qed.
Print Assumptions C54_print_decoded.
(** C54. And what is printed. *)
Theorem C54_text : forall reg depth s l v h t, decode reg depth s = Ok l -> In v l ->
  (py_str (errs_after h) v = Ok t <-> prints (v2_seen h) v t).
Proof.
  intros reg depth s l v h t D I. apply prints_iff; [apply errs_after_right|]. pose proof (plain_decode _ _ _ _ D) as P. rewrite Forall_forall in P. auto.
Qed.
Print Assumptions C54_text.
Theorem C54_message_text : forall reg depth c d m h t, message_decode reg depth c d = Ok m ->
  (message_str (errs_after h) m = Ok t <-> exists ver com pdu, prints (v2_seen h) (m_version m) ver /\ prints (v2_seen h) (m_community m) com /\
     prints (v2_seen h) (m_data m) pdu /\ t = text "["%string ++ ver ++ text ", "%string ++ com ++ text ", "%string ++ pdu ++ text "]"%string).
Proof.
  intros reg depth c d m h t D. destruct (plain_message _ _ _ _ _ D) as (A & B & C).
  pose proof (prints_iff _ _ (errs_after_right h)) as P. unfold message_str. split.
  - destruct (py_str (errs_after h) (m_version m)) as [ver|] eqn:E1; [|discriminate]. destruct (py_str (errs_after h) (m_community m)) as [com|] eqn:E2; [|discriminate].
    destruct (py_str (errs_after h) (m_data m)) as [pdu|] eqn:E3; [|discriminate]. cbn [bind]. intros H. injection H as <-. exists ver, com, pdu.
    split; [apply P; assumption|]. split; [apply P; assumption|]. split; [apply P; assumption|]. reflexivity.
  - intros (ver & com & pdu & E1 & E2 & E3 & ->). apply P in E1; [|exact A]. apply P in E2; [|exact B]. apply P in E3; [|exact C]. rewrite E1, E2, E3. reflexivity.
Qed.
Print Assumptions C54_message_text.
(** C54. The text of a number is its decimal notation, and the only one. *)
Theorem C54_decimal : forall z s, decimal z s <-> s = py_str_of_int z.
Proof. exact decimal_iff. Qed.
Print Assumptions C54_decimal.
Example C54_example : exists m, message_decode (reg_of Upto1157) 9 CMessage (DStr [48; 28; 2; 1; 0; 4; 1; 112; 162; 20; 2; 1; 1; 2; 1; 2; 2; 1; 0; 48; 9; 48; 7; 6; 2; 43; 6; 2; 1; 251]) = Ok m /\
  message_str (errs_after []) m = Ok (text "[0, p, [1, 2: There is no such variable name in this MIB, 0, [[.1.3.6, -5]]]]"%string).
Proof. eexists. split; vm_compute; reflexivity. Qed.
(** C54. So a datagram can make printing it fail: an SNMPv1 response with error status 6. *)
Theorem C54_unprintable_refuted : exists d m, message_decode (reg_of Upto1157) 9 CMessage (DStr d) = Ok m /\ message_str (errs_after []) m = Err KeyError.
Proof.
  exists [48; 19; 2; 1; 0; 4; 1; 112; 162; 11; 2; 1; 1; 2; 1; 6; 2; 1; 0; 48; 0]. eexists. split; vm_compute; reflexivity.
Qed.
Print Assumptions C54_unprintable_refuted.
