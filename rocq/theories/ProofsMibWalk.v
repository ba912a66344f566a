(** * Proofs about snmpwalk.py and an honest agent. *)
From Coq Require Import Ascii String ZArith List Bool Lia ZifyBool ZifyNat Sorted.
From Verif Require Import PyBase Classes Values Codec Manager Text Frontend Tools.
From Verif Require Import SpecBER SpecSMI SpecTree SpecWire SpecMsg SpecManager SpecText SpecFront SpecTools SpecMib.
From Verif Require Import ProofsTree ProofsDecode ProofsWire ProofsMsg ProofsManager ProofsHistory ProofsReceive ProofsCalls ProofsRun ProofsTools ProofsPrograms ProofsPrograms2 ProofsProgress.
From Verif Require Import ProofsNetwork ProofsMib.
Import ListNotations.
Open Scope Z_scope.
Local Open Scope list_scope.

Lemma first_half p twice hex next args a dst tr : tool p twice hex next -> p_main p args = Ask a (Stop (Ok tt)) ->
  (forall m' r, do_call FSM a mgr0 = (m', r) -> queued mgr0 m' r 0 dst (Cb 0) tr) ->
  exists s os, runs p Text (Ok tt) args [] s /\ polling s (os, dst) /\ printed s = [] /\ sent s = [] /\ written tr os.
Proof.
  intros To M Q. pose proof To as (F & Tu & _). unfold runs, start. rewrite Tu, M.
  destruct (ask_step p Text args mgr0 [] [] errString0 [] a (Stop (Ok tt)) 0 dst (Cb 0) tr F eq_refl Q) as (m' & kr & msg & os & tab' & S1 & N & O & C & E & W).
  cbn [app] in O. eexists. exists os. split; [|split; [|split; [|split; [|exact W]]]].
  - exists [None; None]. split; [reflexivity|]. split.
    + cbn [psteps]. unfold init. rewrite S1. 
      assert (L : pstep p Text args (mkP (mkState m' [] [ECall a (Ok (RVal (VInt kr 0))); EPut (Some msg) dst]) tab' (Own (Stop (Ok tt))) []) None =
                  Some (mkP (mkState m' [FRun Polling] [ECall a (Ok (RVal (VInt kr 0))); EPut (Some msg) dst]) tab' Running [])).
      { unfold pstep. cbn [stack step user_runs system_of flav]. rewrite F. reflexivity. }
      cbn [app]. rewrite L. reflexivity.
    + exact Logic.I.
  - do 4 eexists. exists msg. split; [reflexivity|]. split; [exact O|]. split; [exact E|]. split; [exact N|].
    intros x cb. rewrite C. destruct (Z.eqb_spec x 0) as [->|Hx]; [split; [intros X; injection X as <-; auto|intros [_ ->]; reflexivity]|].
    cbn. split; [discriminate|intros [X _]; contradiction].
  - reflexivity.
  - reflexivity.
Qed.
Lemma walk_half server com more s id r n v rest sv : let args := server :: com :: more in
  reachable snmpwalk_py Text args s -> awaiting s id -> answers id r -> id + 1 < 2 ^ 31 ->
  r_status r = 0 -> r_bindings r = (n, v) :: rest -> shown v = Some sv -> goes_on v -> resendable (r_bindings r) ->
  exists s' d, goes snmpwalk_py Text args s [datagram r] s' /\ sending s' (id + 1) d /\ printed s' = printed s ++ binding_lines false true n v sv /\
    sent s' = sent s /\ is_request KGetNext com (server, 161) (id + 1) (r_bindings r) d.
Proof.
  intros args Re A An Hid S B Sh G (G3 & G4). pose proof (awaiting_nonneg _ _ _ _ _ Re A) as Pos.
  destruct (good_answer _ _ _ _ args s id r n v rest sv tool_walk A An S B Sh) as (lg & w & bl & ps & tr & D & CN & O & L & P).
  destruct (resend_meaningful _ _ D G3) as (names & _ & BL & ME & LE).
  pose proof (reachable_steps _ _ _ _ _ _ Re P) as Re1.
  destruct (awaiting_state _ _ A) as (cbs & lg0 & tab & out & -> & Pe). cbn [st_of man tab_of printed] in *.
  set (vbl := VSeq bl _) in *.
  assert (WN : walk_next args vbl w = Ask (AGetNext vbl (server, 161) cb_response (VPyStr com) 2) (Stop (Ok tt))) by (unfold walk_next; rewrite (walks_on v w CN G); reflexivity).
  rewrite WN in P, Re1. clear WN.
  destruct (ask_step snmpwalk_py Text args (mkMgr (id + 1) [] cbs) [FResp id; FRead; FRun Polling] lg (extend tab) (out ++ binding_lines false true n v sv)
     (AGetNext vbl (server, 161) cb_response (VPyStr com) 2) (Stop (Ok tt)) (id + 1) (server, 161) cb_response 
     (message_tree 1 com (request_tree KGetNext (id + 1) 0 0 (r_bindings r))) eq_refl eq_refl) as (m' & kr & msg & os & tab' & S1 & N & OB & C & E & W).
  { intros m' r0 DC.
    pose proof (getnext_on_wire FSM vbl (server, 161) cb_response com 2 names (r_bindings r) (mkMgr (id + 1) [] cbs) m' r0) as GW.
    cbn [nextRequestID asked_version] in GW. change (2 - 1) with 1 in GW. apply GW; [discriminate|auto|apply BL|exact ME|rewrite LE; exact G4|lia|exact DC]. }
  cbn [outbound app] in OB.
  assert (P2 : psteps snmpwalk_py Text args (mkP (mkState (mkMgr (id + 1) [] cbs) [FRun Polling] lg0) tab Running out) (tr ++ [None]) = 
     Some (mkP (mkState m' [FResp id; FRead; FRun Polling] (lg ++ [ECall (AGetNext vbl (server, 161) cb_response (VPyStr com) 2) (Ok (RVal (VInt kr (id + 1)))); EPut (Some msg) (server, 161)])) tab' (Own (Stop (Ok tt))) (out ++ binding_lines false true n v sv))).
  { rewrite (psteps_app _ _ _ _ _ _ _ P). cbn [psteps]. rewrite S1. reflexivity. }
  pose proof (reachable_nodup _ _ _ _ (reachable_steps _ _ _ _ _ _ Re P2)) as ND. cbn [st_of man] in ND.
  eexists. exists (os, (server, 161)). split; [|split; [|split; [|split]]].
  - exists ((tr ++ [None]) ++ [None]). split; [rewrite !outsides_app, O; reflexivity|]. split.
    + rewrite (psteps_app _ _ _ _ _ _ _ P2). cbn [psteps].
      rewrite (return_step snmpwalk_py args id m' _ tab' _ (Cb 0)); [reflexivity|reflexivity|rewrite C; destruct (Z.eqb_spec id (id + 1)); [lia|]; apply Pe; auto].
    + exact Logic.I.
  - do 4 eexists. exists msg. split; [reflexivity|]. cbn [outbound nextRequestID callbacks fst snd]. split; [exact OB|]. split; [exact E|]. split; [exact N|].
    intros x cb. rewrite dict_get_del by exact ND. rewrite C. destruct (Z.eqb_spec id x) as [->|NE].
    + split; [discriminate|]. intros [X _]. lia.
    + destruct (Z.eqb_spec x (id + 1)) as [->|NE2].
      * split; [intros X; injection X as <-; auto|]. intros [_ ->]. reflexivity.
      * cbn [callbacks]. rewrite Pe. split; [intros [X _]; congruence|intros [X _]; congruence].
  - reflexivity.
  - unfold sent, sends in *. cbn [st_of log] in *. rewrite !flat_map_app, L. cbn. rewrite !app_nil_r. reflexivity.
  - split; [reflexivity|]. exact W.
Qed.

(** ** What the agent makes of the requests *)
Lemma wf_leaf_readable t : wf Upto1905 t -> shown t <> None -> readable Upto1905 t.
Proof.
  destruct t as [k z|k s|l|k|k l]; cbn [wf readable shown]; intros W S; [destruct k; tauto| |exact W| |congruence].
  - destruct W as [-> | ->]; reflexivity.
  - left. exact W.
Qed.
Lemma requests_readable k id bs : k = KGet \/ k = KGetNext \/ k = KSet -> 0 <= id < 2 ^ 31 ->
  Forall (fun b => oid_survives (fst b) /\ wf Upto1905 (snd b) /\ shown (snd b) <> None) bs -> zlen bs <= 2 ^ 31 - 1 -> readable Upto1905 (request_tree k id 0 0 bs).
Proof.
  intros K Hid F L. apply readable_seq. split.
  - constructor; [exact Logic.I|]. constructor; [exact Logic.I|]. constructor; [exact Logic.I|]. constructor; [|constructor].
    apply readable_seq. split; [|exact Logic.I]. rewrite Forall_map. eapply Forall_impl; [|exact F]. intros b (A & B & C).
    apply readable_seq. split; [|exact Logic.I]. constructor; [exact A|]. constructor; [apply wf_leaf_readable; assumption|constructor].
  - assert (RS : request_shape [TInt KInteger id; TInt KInteger 0; TInt KInteger 0; TSeq KSequence (map binding_tree bs)]).
    { exists id, 0, 0, (map binding_tree bs). split; [reflexivity|]. unfold in32. repeat split; try lia.
      - rewrite Forall_map. apply Forall_forall. intros b _. do 2 eexists. reflexivity.
      - rewrite map_length. exact L. }
    destruct K as [-> |[-> | ->]]; split; auto.
Qed.
Lemma message_readable ver com t : readable Upto1905 t -> readable Upto1905 (message_tree ver com t).
Proof. intros R. apply readable_seq. split; [|exact Logic.I]. constructor; [exact Logic.I|]. constructor; [reflexivity|]. constructor; [exact R|constructor]. Qed.
Lemma binding_trees_inj a : forall b, map binding_tree a = map binding_tree b -> a = b.
Proof.
  induction a as [|[n v] a IH]; intros [|[n' v'] b] H; try discriminate H; [reflexivity|]. cbn [map] in H. unfold binding_tree in H. cbn [fst snd] in H.
  injection H as -> -> H. f_equal. apply IH. exact H.
Qed.
Lemma served k com dst id bs d r M M' : is_request k com dst id bs d -> readable Upto1905 (request_tree k id 0 0 bs) -> serves M d r M' ->
  answers id r /\ treats M k bs (r_status r) (r_bindings r) M'.
Proof.
  intros (_ & W & _) R (k' & id' & bs' & com' & strict & L & _ & R' & W' & A & T).
  pose proof (wire_unambiguous Upto1905 _ _ _ _ _ (W (small_enough _ L)) W' (message_readable _ _ _ R) (message_readable _ _ _ R')) as E.
  unfold message_tree, request_tree in E. injection E as E1 E2 E3 E4. apply binding_trees_inj in E4. subst. auto.
Qed.

(** ** The walk *)
Definition asks (name : list Z) (L : list (list Z * tree)) (j : nat) : kind * list (list Z * tree) :=
  match j with O => (KGet, [(name, TNull KNull)]) | S i => (KGetNext, [nth i L (name, TNull KNull)]) end.
Definition request_no name L com server (j : nat) (d : str * address) : Prop :=
  is_request (fst (asks name L j)) com (server, 161) (Z.of_nat j) (snd (asks name L j)) d.
Definition requests name L com server (k : nat) (ds : list (str * address)) : Prop :=
  length ds = k /\ forall j d, nth_error ds j = Some d -> request_no name L com server j d.
Definition lines (L : list (list Z * tree)) (k : nat) : list str := flat_map entry_lines (firstn k L).
Inductive phase (perfect : bool) name L server com (args : list str) (s : pstate) : Prop :=
| phase_start d : polling s d -> request_no name L com server 0 d -> printed s = [] -> sent s = [] -> phase perfect name L server com args s
| phase_send k d : (k <= length L)%nat -> sending s (Z.of_nat k) d -> request_no name L com server k d -> printed s = lines L k ->
    requests name L com server k (sent s) -> phase perfect name L server com args s
| phase_wait k : (k <= length L)%nat -> awaiting s (Z.of_nat k) -> printed s = lines L k -> requests name L com server (S k) (sent s) -> phase perfect name L server com args s
| phase_lost k : perfect = false -> printed s = lines L k -> SpecTools.settled s -> (exists e, doing_of s = Over e) \/ doomed snmpwalk_py args s -> phase perfect name L server com args s
| phase_done : doing_of s = Over SystemExit -> printed s = all_lines name L -> phase perfect name L server com args s.

Lemma requests_readable_no M name v L j : lists M name L -> M name = Some v -> walkable L -> oid_survives name -> (j <= length L)%nat ->
  readable Upto1905 (request_tree (fst (asks name L j)) (Z.of_nat j) 0 0 (snd (asks name L j))).
Proof.
  intros Li Mn (W & Len) N J. unfold zlen in Len. destruct j as [|j]; cbn [asks fst snd].
  - apply requests_readable; [auto|lia| |unfold zlen; cbn; lia]. constructor; [|constructor]. cbn. repeat split; auto. discriminate.
  - apply requests_readable; [auto|lia| |unfold zlen; cbn; lia]. constructor; [|constructor]. apply (proj1 (Forall_forall _ _) W). apply nth_In. lia.
Qed.
Lemma snoc_requests name L com server k ds d : requests name L com server k ds -> request_no name L com server k d -> requests name L com server (S k) (ds ++ [d]).
Proof.
  intros [Le R] Q. split; [rewrite app_length; cbn; lia|]. intros j d' H. destruct (Nat.lt_ge_cases j (length ds)) as [Lt|Ge].
  - rewrite nth_error_app1 in H by exact Lt. eauto.
  - rewrite nth_error_app2 in H by exact Ge. destruct (j - length ds)%nat as [|i] eqn:E; [|destruct i; discriminate H]. injection H as <-. replace j with k by lia. exact Q.
Qed.
(** The answer to the last request. *)
Lemma last_answer M name v L k r M' : lists M name L -> M name = Some v -> (k <= length L)%nat ->
  treats M (fst (asks name L k)) (snd (asks name L k)) (r_status r) (r_bindings r) M' -> r_status r = 0 /\
  r_bindings r = [if (k <? length L)%nat then nth k L (name, TNull KNull) else (fst (last L (name, TNull KNull)), TNull KEndOfMibView)].
Proof.
  intros Li Mn K T. destruct (list_head _ _ _ _ Li Mn) as (L' & HL). destruct k as [|j]; cbn [asks fst snd treats] in T; destruct T as (S0 & F & _); (split; [exact S0|]);
    inversion F as [|b b' l l' B F']; subst; inversion F'; subst.
  - destruct B as [E [B|[B _]]]; cbn [fst snd] in *; [|congruence]. destruct b' as [n' v']. cbn [fst snd] in *. subst n'. rewrite Mn in B. injection B as ->. reflexivity.
  - set (L0 := (name, v) :: L') in *. destruct (nth_split L0 (name, TNull KNull) K) as (A & B0 & EL & EA).
    pose proof (list_next M name L0 A (nth j L0 (name, TNull KNull)) B0 b' Li EL B) as X. f_equal.
    assert (EN : forall i, nth (S j + i) L0 (name, TNull KNull) = nth i B0 (name, TNull KNull)).
    { intros i. rewrite EL at 1. rewrite app_nth2 by lia. replace (S j + i - length A)%nat with (S i) by lia. reflexivity. }
    assert (LN : length L0 = (S j + length B0)%nat) by (rewrite EL at 1; rewrite app_length; cbn; lia).
    destruct B0 as [|c B0].
    + cbn [length] in LN. destruct (Nat.ltb_spec (S j) (length L0)) as [Y|_]; [lia|]. rewrite X. f_equal. f_equal.
      rewrite EL at 2. rewrite last_last. reflexivity.
    + cbn [length] in LN. destruct (Nat.ltb_spec (S j) (length L0)) as [_|Y]; [|lia]. rewrite X. specialize (EN 0%nat). rewrite Nat.add_0_r in EN. rewrite EN. reflexivity.
Qed.
Lemma lines_snoc L k d : (k < length L)%nat -> lines L (S k) = lines L k ++ entry_lines (nth k L d).
Proof.
  unfold lines. revert k. induction L as [|b L IH]; intros k H; [cbn in H; lia|]. destruct k as [|k]; [cbn; rewrite app_nil_r; reflexivity|].
  cbn [firstn flat_map nth] in *. cbn [length] in H. rewrite IH by lia. rewrite app_assoc. reflexivity.
Qed.
Lemma phase_step perfect M name v L server com oid s o s' : let args := [server; com; oid] in
  lists M name L -> M name = Some v -> walkable L -> oid_survives name -> reachable snmpwalk_py Text args s ->
  phase perfect name L server com args s -> honest perfect M s o -> goes snmpwalk_py Text args s [o] s' -> phase perfect name L server com args s'.
Proof.
  intros args Li Mn W N Re Ph Ho G. destruct Ph as [d Po Q P S|k d K Se Q P R|k K A P R|k Pf P St D|D P].
  - destruct o as [i|x]; [|destruct Po as (m & lg & tab & out & msg & -> & _); exfalso; eapply waiting_no_answers; [| |exact G]; reflexivity].
    assert (Hi : i = Nothing \/ exists e, i = SocketError e).
    { destruct i as [|depth os src|e]; [auto| |eauto]. destruct Ho as (d' & r & M' & _ & _ & X). rewrite S in X. destruct perfect; [destruct X as ([|] & X); discriminate X|destruct X]. }
    destruct (polling_goes _ _ _ _ args s d i s' tool_walk Po Hi G) as (P' & S' & [[-> X]|[Ni X]]).
    + apply (phase_send perfect name L server com args s' 0 d); [lia|exact X|exact Q|rewrite P', P; reflexivity|]. rewrite S', S. split; [reflexivity|]. intros [|j] d' H; discriminate H.
    + apply (phase_lost perfect name L server com args s' 0); [|rewrite P', P; reflexivity|eapply goes_settled; exact G|exact X].
      destruct Hi as [->|[e ->]]; [contradiction|exact Ho].
  - destruct o as [i|x]; [destruct (sending_no_finds _ _ _ _ _ _ _ Se G)|].
    destruct (sending_goes _ _ _ _ args s (Z.of_nat k) d x s' tool_walk Se G) as (P' & [(-> & A & S')|(Nx & e & D)]).
    + apply (phase_wait perfect name L server com args s' k); [exact K|exact A|congruence|]. rewrite S'. apply snoc_requests; assumption.
    + apply (phase_lost perfect name L server com args s' k); [|congruence|eapply goes_settled; exact G|left; eauto]. destruct perfect; [|reflexivity]. elim Nx. apply Ho. reflexivity.
  - pose proof A as (Dr & Kp & _). destruct o as [i|x]; [|destruct (waiting_no_answers snmpwalk_py args s x s' Kp Dr G)].
    assert (Lost : perfect = false -> (forall depth os src msg, i = Datagram depth os src -> message_decode (reg_of Upto1905) depth CMessage_v2 (DStr os) = Ok msg -> ~ carries msg (Z.of_nat k)) ->
      phase perfect name L server com args s').
    { intros Pf NC. destruct (no_chance _ _ _ _ args s (Z.of_nat k) i s' tool_walk A NC G) as (P' & X).
      apply (phase_lost perfect name L server com args s' k); [exact Pf|congruence|eapply goes_settled; exact G|exact X]. }
    destruct i as [|depth os src|e].
    + apply Lost; [|discriminate]. destruct perfect; [|reflexivity]. specialize (Ho eq_refl). destruct R as [R _]. rewrite Ho in R. discriminate R.
    + destruct Ho as (d & r & M' & E & Sv & X).
      assert (Hj : exists j, nth_error (sent s) j = Some d /\ (perfect = true -> j = k)).
      { destruct perfect.
        - destruct X as (ds & X). exists k. split; [|auto]. destruct R as [R _]. rewrite X in *. rewrite app_length in R. cbn in R. rewrite nth_error_app2 by lia. replace (k - length ds)%nat with 0%nat by lia. reflexivity.
        - apply In_nth_error in X as [j X]. exists j. split; [exact X|discriminate]. }
      destruct Hj as (j & Hj & Pj). pose proof (proj2 R j d Hj) as Rq.
      assert (Jk : (j <= k)%nat) by (apply nth_error_Some_lt in Hj || (assert (j < length (sent s))%nat by (apply nth_error_Some; congruence); destruct R as [R _]; lia)).
      destruct (served _ _ _ _ _ _ _ _ _ Rq (requests_readable_no M name v L j Li Mn W N (Nat.le_trans _ _ _ Jk K)) Sv) as (An & Tr).
      destruct (Nat.eq_dec j k) as [->|Ne].
      * destruct (last_answer M name v L k r M' Li Mn K Tr) as (St & Bs). rewrite <- E in G.
        destruct (Nat.ltb_spec k (length L)) as [Lt|Ge].
        -- pose proof (proj1 (Forall_forall _ _) (proj1 W) _ (nth_In L (name, TNull KNull) Lt)) as (O1 & W1 & S1).
           destruct (nth k L (name, TNull KNull)) as [n' v'] eqn:EN. cbn [fst snd] in *. destruct (shown v') as [sv|] eqn:Sh; [|congruence].
           assert (Go : goes_on v') by (split; intros ->; discriminate W1).
           assert (Rs : resendable (r_bindings r)). { rewrite Bs. split; [constructor; [|constructor]; cbn; rewrite Sh; auto|unfold zlen; cbn; lia]. }
           destruct W as [W Len]. unfold zlen in Len.
           destruct (walk_half server com [oid] s (Z.of_nat k) r n' v' [] sv Re A An ltac:(lia) St Bs Sh Go Rs) as (s2 & d2 & G2 & Se & P2 & S2 & Q2).
           fold args in G2. rewrite <- (goes_deterministic _ _ _ _ _ _ _ G G2) in *.
           apply (phase_send perfect name L server com args s' (S k) d2); [lia|replace (Z.of_nat (S k)) with (Z.of_nat k + 1) by lia; exact Se| | |rewrite S2; exact R].
           ++ unfold request_no. cbn [asks fst snd]. rewrite EN, <- Bs. replace (Z.of_nat (S k)) with (Z.of_nat k + 1) by lia. exact Q2.
           ++ rewrite P2, P, (lines_snoc L k (name, TNull KNull) Lt), EN. unfold entry_lines. cbn [fst snd]. rewrite Sh. reflexivity.
        -- assert (k = length L) as -> by lia.
           destruct (walk_stops server com [oid] s (Z.of_nat (length L)) r _ (TNull KEndOfMibView) [] _ A An St Bs eq_refl) as (s2 & G2 & D2 & P2 & S2).
           { intros [_ X']. apply X'. reflexivity. }
           fold args in G2. rewrite <- (goes_deterministic _ _ _ _ _ _ _ G G2) in *. apply phase_done; [exact D2|]. rewrite P2, P. unfold all_lines, lines. rewrite firstn_all. reflexivity.
      * apply Lost; [destruct perfect; [elim Ne; auto|reflexivity]|]. intros depth' os' src' msg Ei De (c & rid & rest & Da & Pi).
        injection Ei as <- <- <-. unfold datagram in E. injection E as <- <- _.
        destruct (response_off_wire _ _ An) as (cv & v1 & c1 & kr & bl & ps & De2 & _). rewrite De in De2. injection De2 as ->. cbn [m_data] in Da. injection Da as <- <- <-.
        cbn [py_int] in Pi. injection Pi as Pi. lia.
    + apply Lost; [exact Ho|discriminate].
  - destruct D as [[e D]|D]; [destruct (over_stays _ _ _ _ _ _ _ D G)|]. destruct (doomed_goes _ _ _ _ _ St D G) as [P' X].
    apply (phase_lost perfect name L server com args s' k); [exact Pf|congruence|eapply goes_settled; exact G|left; exact X].
  - destruct (over_stays _ _ _ _ _ _ _ D G).
Qed.
