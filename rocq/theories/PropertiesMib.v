(** * C80, C81: the command-line programs and an honest agent.  The vocabulary is in SpecMib; proofs are in ProofsMib, ProofsMibWalk,
    ProofsMibEnd and ProofsMibSet. *)
From Coq Require Import Ascii String ZArith List Bool Lia Sorted.
From Verif Require Import PyBase Classes Values Codec Manager Text Tools SpecBER SpecSMI SpecTree SpecWire SpecMsg SpecManager SpecText SpecFront SpecTools SpecMib.
From Verif Require Import ProofsNumber ProofsFront ProofsPrograms2 ProofsTools ProofsMib ProofsMibWalk ProofsMibEnd ProofsMibSet PropertiesTools.
Import ListNotations.
Open Scope Z_scope.
Local Open Scope list_scope.

(** C80. snmpwalk.py, started at an object the agent has, never prints anything but the lines of the agent's objects from there on, in
    order, each once, and then the end: at every moment, whatever the network loses, delays or repeats, and whatever errors the socket
    reports, its output is a beginning of that text. *)
Theorem C80_prefix : forall perfect M name v L server com oid s, names oid name -> lists M name L -> M name = Some v -> walkable L ->
  observed perfect M snmpwalk_py [server; com; oid] s -> exists rest, all_lines name L = printed s ++ rest.
Proof. exact walk_prefix. Qed.
Print Assumptions C80_prefix.
(** C80. If the network is perfect the walk cannot end early: once the process has ended it has printed everything, and its exit code is 0. *)
Theorem C80_complete : forall M name v L server com oid s e, names oid name -> lists M name L -> M name = Some v -> walkable L ->
  observed true M snmpwalk_py [server; com; oid] s -> doing_of s = Over e -> e = SystemExit /\ printed s = all_lines name L.
Proof. exact walk_complete. Qed.
Print Assumptions C80_complete.
(** C80. And it can always come to the end: from every state, if each object fits into a datagram, the agent can answer every request
    still to come, and after at most two events per object the process has ended. *)
Theorem C80_ends : forall M name v L server com oid s, names oid name -> lists M name L -> M name = Some v -> walkable L -> Forall handy L -> zlen com <= 1000 ->
  observed true M snmpwalk_py [server; com; oid] s ->
  exists ev s', goes snmpwalk_py Text [server; com; oid] s ev s' /\ observed true M snmpwalk_py [server; com; oid] s' /\ doing_of s' = Over SystemExit /\
    (length ev <= 2 * (length L + 2))%nat.
Proof. exact walk_ends. Qed.
Print Assumptions C80_ends.
(** C80. If the network is not perfect, an incomplete walk looks like a complete one to the caller: one lost datagram, and the process ends with
    exit code 0 and no message, having printed nothing. *)
Theorem C80_lost_refuted : forall M server com oid name, names oid name ->
  exists s d, observed false M snmpwalk_py [server; com; oid] s /\ ended s SystemExit [] [d].
Proof.
  intros M server com oid name N. destruct (C67_unanswered server com oid name (Ok tt) N snmpwalk_py (or_intror eq_refl)) as (s & d & R & E). exists s, d. split; [|exact E].
  eapply runs_observed; [|exact R]. repeat constructor.
Qed.
Print Assumptions C80_lost_refuted.

(** A table of three objects. *)
Definition sample_list : list (list Z * tree) :=
  [([1; 3; 6; 1], TInt KInteger 5); ([1; 3; 6; 1; 0], TOct KOctetString [104; 105]); ([1; 3; 6; 2], TInt KTimeTicks 7)].
Definition sample_mib (n : list Z) : option tree := option_map snd (find (fun b => if list_eq_dec Z.eq_dec (fst b) n then true else false) sample_list).
Example C80_example : names (text ".1.3.6.1"%string) [1; 3; 6; 1] /\ lists sample_mib [1; 3; 6; 1] sample_list /\ sample_mib [1; 3; 6; 1] = Some (TInt KInteger 5) /\
  walkable sample_list /\ Forall handy sample_list /\ 
  all_lines [1; 3; 6; 1] sample_list = map text [".1.3.6.1 = Integer32: 5"; ".1.3.6.1.0 = OctetString: hi"; "   hex: 6869"; ".1.3.6.2 = TimeTicks: 7"; ".1.3.6.2 = EndOfMibView: EndOfMibView"]%string /\
  exists s, observed true sample_mib snmpwalk_py [text "h"; text "p"; text ".1.3.6.1"]%string s /\ ended s SystemExit (all_lines [1; 3; 6; 1] sample_list) (sent s).
Proof.
  assert (N : names (text ".1.3.6.1"%string) [1; 3; 6; 1]) by (split; [apply oid_text_iff; reflexivity|cbn; repeat split; try lia; repeat constructor; lia]).
  assert (Li : lists sample_mib [1; 3; 6; 1] sample_list).
  { split.
    - cbn [sample_list map fst]. repeat constructor; cbn; lia.
    - intros n v. unfold sample_mib. cbn [sample_list find fst snd].
      assert (P : forall a b : list Z, a = b \/ a <> b) by (intros a b; destruct (list_eq_dec Z.eq_dec a b); auto).
      repeat match goal with |- context [list_eq_dec Z.eq_dec ?a n] => destruct (list_eq_dec Z.eq_dec a n) as [<-|?] end; cbn [option_map snd In];
        (split; [intros I; repeat (destruct I as [I|I]); try contradiction; inversion I; subst; try congruence; try contradiction; try (split; [reflexivity|]; cbn; try (left; reflexivity); right; lia) 
                |intros [E B]; try discriminate E; injection E as <-; auto]). all: cbn; auto. }
  assert (W : walkable sample_list).
  { split; [|reflexivity]. repeat constructor; cbn; try lia; try discriminate. }
  assert (O : forall l rest, oid_survives (1 :: 3 :: l) -> Forall (fun x => 0 <= x < 128) l -> zlen l < 100 -> zlen rest < 100 -> forall t, wire true t rest -> handy (1 :: 3 :: l, t)).
  { intros l rest S F B B2 t Wt. assert (P : 0 <= zlen l /\ 0 <= zlen rest) by (unfold zlen; lia).
    assert (Wo : wire true (TOid (1 :: 3 :: l)) (6 :: (1 + zlen l) :: 43 :: l)).
    { apply (wire_oid true _ (43 :: l)); [|apply (tlv_short 6 (43 :: l)); [unfold zlen; cbn [length]; lia|lia]].
      exists [43], (map (fun x => [x]) l). split; [cbn [app]; f_equal; clear; induction l as [|x l IH]; [reflexivity|cbn; f_equal; exact IH]|].
      split; [constructor; lia|]. split; [cbn; lia|]. split; [reflexivity|]. clear - F. induction F as [|x l Hx F IH]; [constructor|]. cbn [map]. constructor; [|exact IH].
      split; [constructor; lia|]. split; [intros _; cbn; lia|]. cbn. rewrite Z.mod_small by lia. lia. }
    destruct (seq_exists true KSequence [TOid (1 :: 3 :: l); t] _ eq_refl (wires_cons _ _ _ _ _ Wo (wires1 _ _ _ Wt))) as (os & X & Y).
    { rewrite zlen_app. unfold zlen in *. cbn [length]. lia. }
    exists true, os. split; [exact X|]. rewrite Y, zlen_app. unfold zlen in *. cbn [length]. lia. }
  assert (Hd : Forall handy sample_list).
  { unfold sample_list. constructor; [|constructor; [|constructor; [|constructor]]].
    - apply (O [6; 1] [2; 1; 5]); [cbn; repeat split; try lia; repeat constructor; lia|repeat constructor; lia|reflexivity|reflexivity|].
      apply (wire_number true [5] 5 1); [repeat constructor; lia|discriminate|intros _; exact Logic.I|reflexivity|reflexivity|lia].
    - apply (O [6; 1; 0] [4; 2; 104; 105]); [cbn; repeat split; try lia; repeat constructor; lia|repeat constructor; lia|reflexivity|reflexivity|].
      apply wire_oct; [reflexivity|apply (tlv_short 4 [104; 105] 2); [reflexivity|lia]].
    - apply (O [6; 2] [67; 1; 7]); [cbn; repeat split; try lia; repeat constructor; lia|repeat constructor; lia|reflexivity|reflexivity|].
      apply (wire_int true KTimeTicks [7]); [reflexivity|repeat constructor; lia|discriminate|intros _; exact Logic.I|apply (tlv_short 67 [7] 1); [reflexivity|lia]]. }
  repeat (split; [assumption || reflexivity|]).
  destruct (C66_starts snmpwalk_py Text (Ok tt) [text "h"; text "p"; text ".1.3.6.1"]%string) as (s0 & R0).
  pose proof (observed_start true sample_mib _ _ _ R0) as O0.
  assert (Hc : zlen (text "p"%string) <= 1000) by (cbn; lia).
  destruct (C80_ends _ _ _ _ _ _ _ _ N Li eq_refl W Hd Hc O0) as (ev & s' & _ & O1 & D & _).
  destruct (C80_complete _ _ _ _ _ _ _ _ _ N Li eq_refl W O1 D) as [_ P]. exists s'. split; [exact O1|]. split; [exact D|]. split; [exact P|reflexivity].
Qed.

(** C81. snmpset.py tells the truth: when the exchange is over it has printed the binding exactly if the agent's table now has the value, and
    otherwise the error code with its text, the table being unchanged; it exits with code 0 either way. *)
Theorem C81_set : forall server com oid name ty value t M r M' s, names oid name -> set_value ty value t ->
  exchanged snmpset_py [server; com; oid; ty; value] M r M' s ->
  (exists sv, shown t = Some sv /\ ended s SystemExit (binding_lines true false name t sv) (sent s) /\ forall n, M' n = assign M (name, t) n) \/
  (exists code txt, 1 <= code <= 18 /\ error_text code = Some txt /\ ended s SystemExit [error_line code txt] (sent s) /\ forall n, M' n = M n).
Proof. exact set_exchanged. Qed.
Print Assumptions C81_set.
(** C81. snmpget.py prints the value in the agent's table, or the marker if there is none, and changes nothing. *)
Theorem C81_get : forall server com oid name M r M' s, names oid name -> exchanged snmpget_py [server; com; oid] M r M' s ->
  (forall v, M name = Some v -> shown v <> None) ->
  (forall n, M' n = M n) /\ exists v sv, shown v = Some sv /\ ended s SystemExit (binding_lines true true name v sv) (sent s) /\
    (M name = Some v \/ M name = None /\ (v = TNull KNoSuchObject \/ v = TNull KNoSuchInstance)).
Proof. exact get_exchanged. Qed.
Print Assumptions C81_get.
(** C81. What was set is what is read: if snmpset.py prints no error, the next snmpget.py for the same object - by whatever community, from
    whatever host, the name written in whatever way - prints the value snmpset.py was given. *)
Theorem C81_read_your_writes : forall server com oid name ty value t server' com' oid' M r M' s r' M'' s', names oid name -> names oid' name -> set_value ty value t ->
  exchanged snmpset_py [server; com; oid; ty; value] M r M' s -> exchanged snmpget_py [server'; com'; oid'] M' r' M'' s' ->
  (exists sv, shown t = Some sv /\ printed s = binding_lines true false name t sv /\ printed s' = binding_lines true true name t sv) \/
  exists code txt, 1 <= code <= 18 /\ error_text code = Some txt /\ printed s = [error_line code txt] /\ M' name = M name.
Proof. exact read_your_writes. Qed.
Print Assumptions C81_read_your_writes.
(** C81. Such exchanges exist, for every table, object and value that fits into a datagram, and with every outcome the agent can choose. *)
Theorem C81_set_possible : forall server com oid name ty value t M M' st, names oid name -> set_value ty value t -> handy (name, t) -> zlen com <= 1000 ->
  treats M KSet [(name, t)] st [(name, t)] M' -> exists r s, exchanged snmpset_py [server; com; oid; ty; value] M r M' s.
Proof. exact set_possible. Qed.
Print Assumptions C81_set_possible.
Theorem C81_get_possible : forall server com oid name M v, names oid name -> M name = Some v -> handy (name, v) -> readable Upto1905 v -> shown v <> None -> zlen com <= 1000 ->
  exists r s, exchanged snmpget_py [server; com; oid] M r M s.
Proof. exact get_possible. Qed.
Print Assumptions C81_get_possible.
(** C81. Setting an object of the sample table to 42 and reading it back. *)
Example C81_example : exists r M' s r' s', exchanged snmpset_py [text "h"; text "p"; text "1.3.6.1"; text "i"; text " +42"]%string sample_mib r M' s /\
  printed s = [text ".1.3.6.1 = Integer32: (42) 42"%string] /\ exchanged snmpget_py [text "h"; text "q"; text ".1.3.6.1"]%string M' r' M' s' /\
  printed s' = [text ".1.3.6.1 = Integer32: (42) 42"%string].
Proof.
  destruct C80_example as (N & _). assert (N' : names (text "1.3.6.1"%string) [1; 3; 6; 1]) by (split; [apply oid_text_iff; reflexivity|apply N]).
  assert (V : set_value (text "i"%string) (text " +42"%string) (TInt KInteger 42)).
  { apply set_value_i; [apply int_of_str_ok; reflexivity|lia|left; lia]. }
  assert (Hd : handy ([1; 3; 6; 1], TInt KInteger 42)).
  { exists false, [48; 8; 6; 3; 43; 6; 1; 2; 1; 42]. split; [|cbn; lia]. apply (wire_short false KSequence _ [6; 3; 43; 6; 1; 2; 1; 42] 8); [reflexivity| |reflexivity|lia].
    apply (wires_cons false _ _ [6; 3; 43; 6; 1]).
    - apply (wire_oid false _ [43; 6; 1]); [|apply (tlv_short 6 [43; 6; 1] 3); [reflexivity|lia]].
      exists [43], [[6]; [1]]. split; [reflexivity|]. split; [constructor; lia|]. split; [cbn; lia|]. split; [reflexivity|].
      constructor; [|constructor; [|constructor]]; (split; [constructor; lia|]; split; [discriminate|reflexivity]).
    - apply wires1. apply (wire_number false [42] 42 1); [repeat constructor; lia|discriminate|discriminate|reflexivity|reflexivity|lia]. }
  set (M' := assign sample_mib ([1; 3; 6; 1], TInt KInteger 42)).
  destruct (C81_set_possible (text "h"%string) (text "p"%string) _ _ _ _ _ sample_mib M' 0 N' V Hd ltac:(cbn; lia)) as (r & s & X).
  { split; [reflexivity|]. left. split; [reflexivity|]. intros n. reflexivity. }
  destruct (C81_get_possible (text "h"%string) (text "q"%string) _ _ M' (TInt KInteger 42) N eq_refl Hd Logic.I ltac:(discriminate) ltac:(cbn; lia)) as (r' & s' & Y).
  exists r, M', s, r', s'. split; [exact X|].
  destruct (C81_read_your_writes _ _ _ _ _ _ _ _ _ _ _ _ _ _ _ _ _ N' N V X Y) as [(sv & Sh & P & P')|(code & txt & _ & _ & _ & E)].
  - injection Sh as <-. split; [exact P|]. split; [exact Y|exact P'].
  - exfalso. vm_compute in E. discriminate E.
Qed.
