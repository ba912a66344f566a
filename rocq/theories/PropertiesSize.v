(** * C79: how long encodings are.  [wire] (SpecWire) is BER as X.690 defines it; proofs are in ProofsSize. *)
From Coq Require Import ZArith List Bool Lia.
From Verif Require Import PyBase Classes Values Codec SpecBER SpecSMI SpecTree SpecWire SpecSize Bits ProofsTree ProofsSize.
Import ListNotations.
Open Scope Z_scope.

(** C79. Whatever the library writes for a value is at most twice as long as any BER encoding of that value whatever - in
    particular as the shortest one - however large and deep the value is. *)
Theorem C79_at_most_twice : forall cfg v t os strict os', tree_of v = Some t -> wf cfg t -> encode v = Ok os ->
  wire strict t os' -> zlen os <= 2 * zlen os'.
Proof. intros cfg v t os strict os' T W E Wi. exact (proj1 (all_sized cfg v t os strict os' T W E Wi)). Qed.
Print Assumptions C79_at_most_twice.
(** C79. And no encoding is shorter than the library's unless the value, or a part of it at some depth, is one the library
    writes in exactly 130 octets: contents of 127 octets, the one length for which the long form is not needed and is used. *)
Theorem C79_shortest : forall cfg v t os strict os', tree_of v = Some t -> wf cfg t -> encode v = Ok os ->
  (forall w ow, part w v -> encode w = Ok ow -> zlen ow <> 130) -> wire strict t os' -> zlen os <= zlen os'.
Proof. intros cfg v t os strict os' T W E N Wi. exact (proj2 (all_sized cfg v t os strict os' T W E Wi) N). Qed.
Print Assumptions C79_shortest.
(** C79. Every string of 127 octets is such a case: the library needs 130 octets, BER 129.  So the condition of C79_shortest
    cannot be dropped. *)
Theorem C79_shortest_refuted : forall s, octet_string s -> zlen s = 127 -> exists os os',
  encode (VOct COctetString (VPyStr s)) = Ok os /\ zlen os = 130 /\ wire true (TOct KOctetString s) os' /\ zlen os' = 129.
Proof.
  intros s _ H. exists (4 :: [129; 127] ++ s), (4 :: [127] ++ s).
  assert (H' : Z.of_nat (length s) = 127) by exact H.
  split; [|split; [|split]].
  - cbn [encode]. unfold tlv. rewrite H. reflexivity.
  - rewrite zlen_cons, zlen_app, H. reflexivity.
  - apply wire_oct; [reflexivity|]. exists [127]. split; [|reflexivity]. rewrite H'. left. split; [reflexivity|lia].
  - rewrite zlen_cons, zlen_app, H. reflexivity.
Qed.
Print Assumptions C79_shortest_refuted.
(** C79. Examples: a nested value whose 11 octets are the shortest possible; another encoding of it, with a long-form
    length, has 12. *)
Definition size_sample : val := VSeq CSequence [VInt CInteger 5; VSeq CSequence [VOid (Some [1; 3; 6])]].
Example C79_example : exists t os os', tree_of size_sample = Some t /\ wf Only1155 t /\ encode size_sample = Ok os /\ zlen os = 11 /\
  (forall w ow, part w size_sample -> encode w = Ok ow -> zlen ow <> 130) /\ wire true t os' /\ zlen os' = 12.
Proof.
  eexists; exists [48; 9; 2; 1; 5; 48; 4; 6; 2; 43; 6], [48; 129; 9; 2; 1; 5; 48; 4; 6; 2; 43; 6].
  split; [reflexivity|]. split.
  { cbn. repeat split; try lia; auto. - left. lia. - repeat constructor; lia. }
  split; [reflexivity|]. split; [reflexivity|]. split; [|split; [|reflexivity]].
  - intros w ow P E. unfold size_sample in P.
    assert (D : In w [size_sample; VInt CInteger 5; VSeq CSequence [VOid (Some [1; 3; 6])]; VOid (Some [1; 3; 6])]).
    { inversion P as [|? ? x In1 P1]; subst; [left; reflexivity|]. destruct In1 as [<-|[<-|[]]].
      - inversion P1; subst. right; left; reflexivity.
      - inversion P1 as [|? ? y In2 P2]; subst; [right; right; left; reflexivity|]. destruct In2 as [<-|[]]. inversion P2; subst. do 3 right; left; reflexivity. }
    destruct D as [<-|[<-|[<-|[<-|[]]]]]; vm_compute in E; injection E as <-; vm_compute; discriminate.
  - apply (wire_seq true KSequence _ [2; 1; 5; 48; 4; 6; 2; 43; 6]); [reflexivity| |].
    + apply (wires_cons true _ _ [2; 1; 5] [48; 4; 6; 2; 43; 6]).
      * apply (wire_int true KInteger [5]); [reflexivity|repeat constructor; lia|discriminate|intros _; exact Logic.I|].
        exists [1]. split; [left; split; [reflexivity|cbn; lia]|reflexivity].
      * apply (wires_cons true _ _ [48; 4; 6; 2; 43; 6] []); [|constructor].
        apply (wire_seq true KSequence _ [6; 2; 43; 6]); [reflexivity| |].
        -- apply (wires_cons true _ _ [6; 2; 43; 6] []); [|constructor].
           apply (wire_oid true _ [43; 6]).
           ++ exists [43], [[6]]. split; [reflexivity|]. split; [constructor; lia|]. split; [cbn; lia|]. split; [reflexivity|].
              constructor; [|constructor]. split; [constructor; lia|]. split; [intros _; cbn; lia|reflexivity].
           ++ exists [2]. split; [left; split; [reflexivity|cbn; lia]|reflexivity].
        -- exists [4]. split; [left; split; [reflexivity|cbn; lia]|reflexivity].
    + exists [129; 9]. split; [right; exists [9]; split; [reflexivity|]; split; [cbn; lia|]; split; [repeat constructor; lia|reflexivity]|reflexivity].
Qed.
