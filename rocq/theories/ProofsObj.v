(** * Proofs for C55-C57, C61-C62. *)
From Coq Require Import ZArith List Bool Lia.
From Verif Require Import PyBase Classes Values Codec Frontend SpecBER SpecSMI SpecTree SpecWire SpecMsg SpecObj
  Bits ProofsInt ProofsOid ProofsScalar ProofsTree ProofsDecode ProofsWire ProofsMsg ProofsCalls.
Import ListNotations.
Open Scope Z_scope.

(** ** C55 *)
Lemma cls_eqb_iff c d : cls_eqb c d = true <-> c = d.
Proof. unfold cls_eqb. destruct (cls_eq_dec c d); split; congruence. Qed.
Lemma mro_step c p : parent c = Some p -> forall d, issubclass p d = true -> issubclass c d = true.
Proof. destruct c; cbn; intros H; inversion H; subst; intros d; destruct d; vm_compute; congruence. Qed.
Lemma issubclass_self c : issubclass c c = true.
Proof. destruct c; reflexivity. Qed.
Lemma derives_sub c d : derives c d -> issubclass c d = true.
Proof. induction 1; [apply issubclass_self|eapply mro_step; eauto]. Qed.
Lemma mro_derives n : forall c d, In d (mro_n n c) -> derives c d.
Proof.
  induction n as [|n IH]; intros c d; cbn [mro_n].
  - intros [->|[]]. constructor.
  - intros [->|H]; [constructor|]. destruct (parent c) as [p|] eqn:E; [|destruct H]. econstructor; eauto.
Qed.
Lemma sub_derives c d : issubclass c d = true -> derives c d.
Proof.
  unfold issubclass. rewrite existsb_exists. intros (x & H & E). apply cls_eqb_iff in E. subst x. eapply mro_derives; exact H.
Qed.
Lemma isinstance_iff v d : isinstance v d = true <-> instance_of d v.
Proof.
  unfold isinstance, instance_of. destruct (class_of v) as [c|].
  - split; [intros H; exists c; split; [reflexivity|apply sub_derives; exact H]|].
    intros (c' & E & D). inversion E; subst. apply derives_sub. exact D.
  - split; [discriminate|intros (c & E & _); discriminate].
Qed.
Lemma append_iff ct l v : (instance_of ct v /\ sequenceof_append ct l v = Ok (l ++ [v])) \/
  (~ instance_of ct v /\ sequenceof_append ct l v = Err ValueError).
Proof.
  unfold sequenceof_append. pose proof (isinstance_iff v ct) as H. destruct (isinstance v ct); cbn [negb].
  - left. split; [apply H|]; reflexivity.
  - right. split; [intros C; apply H in C; discriminate|reflexivity].
Qed.
Lemma appends_iff ct items : forall acc, 
  (Forall (instance_of ct) items /\ sequenceof_appends ct acc items = Ok (acc ++ items)) \/
  (~ Forall (instance_of ct) items /\ sequenceof_appends ct acc items = Err ValueError).
Proof.
  induction items as [|x r IH]; intros acc; cbn [sequenceof_appends].
  - left. split; [constructor|rewrite app_nil_r; reflexivity].
  - destruct (append_iff ct acc x) as [[I ->]|[I ->]]; cbn [bind].
    + destruct (IH (acc ++ [x])) as [[F ->]|[F ->]].
      * left. split; [constructor; assumption|rewrite <- app_assoc; reflexivity].
      * right. split; [|reflexivity]. intros C; inversion C; contradiction.
    + right. split; [|reflexivity]. intros C; inversion C; contradiction.
Qed.
Lemma truthy_true v : truthy v = true -> ~ falsy v.
Proof. intros H F. apply truthy_falsy in F. congruence. Qed.
Lemma init_falsy c ct v : falsy v -> sequenceof_init c ct v = Ok (VSeq c []).
Proof. intros F. apply truthy_falsy in F. unfold sequenceof_init. rewrite F. reflexivity. Qed.
Lemma init_items c ct v items : components v = Some items ->
  (Forall (instance_of ct) items /\ sequenceof_init c ct v = Ok (VSeq c items)) \/
  (~ Forall (instance_of ct) items /\ sequenceof_init c ct v = Err ValueError).
Proof.
  intros C. unfold sequenceof_init. destruct (truthy v) eqn:T.
  - rewrite (components_iter _ _ C). cbn [bind]. destruct (appends_iff ct items []) as [[F ->]|[F ->]]; [left|right]; split; auto.
  - left. apply truthy_falsy in T. assert (items = []).
    { destruct v as [|z|[|]|[|]| | |[[|]|]| |? [|]]; cbn in C, T; try contradiction; try discriminate; inversion C; reflexivity. }
    subst. split; [constructor|reflexivity].
Qed.
Lemma init_other c ct v : components v = None -> ~ falsy v -> sequenceof_init c ct v = Err TypeError.
Proof.
  intros C F. unfold sequenceof_init. destruct (truthy v) eqn:T; [|apply truthy_falsy in T; contradiction].
  destruct v as [|z|s|l| | |[[|]|]| |? [|]]; cbn in C |- *; try discriminate; try reflexivity.
Qed.
Lemma append_history ct xs : forall l, Forall (instance_of ct) l ->
  exists ys, append_all ct l xs = l ++ ys /\ Forall (instance_of ct) (l ++ ys) /\
    (forall y, In y ys <-> In y xs /\ instance_of ct y) /\ (Forall (instance_of ct) xs -> ys = xs).
Proof.
  induction xs as [|x r IH]; intros l Hl; cbn [append_all fold_left].
  - exists []. rewrite app_nil_r. split; [reflexivity|]. split; [exact Hl|]. split; [intros y; cbn [In]; tauto|reflexivity].
  - destruct (append_iff ct l x) as [[I ->]|[I ->]].
    + destruct (IH (l ++ [x])) as (ys & E & F & H & K); [apply Forall_app; split; auto|].
      unfold append_all in E. exists (x :: ys). rewrite E, <- app_assoc. cbn [app]. split; [reflexivity|].
      rewrite <- app_assoc in F. cbn [app] in F. split; [exact F|]. split.
      * intros y. cbn [In]. rewrite H. split; [intros [->|[A B]]; auto|intros [[->|A] B]; auto].
      * intros C. inversion C; subst. rewrite K; auto.
    + destruct (IH l Hl) as (ys & E & F & H & K). unfold append_all in E. exists ys. rewrite E. split; [reflexivity|]. split; [exact F|]. split.
      * intros y. rewrite H. cbn [In]. split; [intros [A B]; auto|intros [[->|A] B]; [contradiction|auto]].
      * intros C. inversion C; contradiction.
Qed.
Lemma varbind_classes v : instance_of CVarBind v <-> class_of v = Some CVarBind \/ class_of v = Some CVarBind_v2.
Proof.
  rewrite <- isinstance_iff. unfold isinstance. destruct (class_of v) as [c|]; [|split; [discriminate|intros [H|H]; discriminate]].
  destruct c; vm_compute; split; intros H; auto; try discriminate; destruct H; discriminate.
Qed.

(** ** C56 *)
Lemma known_available cfg k : primitive_kind k = true -> read_available cfg k = known cfg k.
Proof. destruct cfg, k; reflexivity || discriminate. Qed.
Lemma unknown_kind cfg k : primitive_kind k = true -> known cfg k = false -> reg_get (reg_of cfg) (kind_octet k) = None.
Proof. destruct cfg, k; cbn [primitive_kind known]; intros A B; try discriminate; vm_compute; reflexivity. Qed.
Lemma primitive_meth k : primitive_kind k = true -> exists m, read_meth k = Some m /\
  ((m = DInteger /\ In k [KInteger; KGauge32; KTimeTicks]) \/ (m = DCounter /\ In k [KCounter32; KCounter64]) \/
   ((m = DOctetString \/ m = DIPAddress) /\ oct_kind k = true) \/ (m = DNull /\ null_kind k = true) \/ (m = DObjectID /\ k = KObjectID)).
Proof. destruct k; cbn; intros; try discriminate; eexists; (split; [reflexivity|]); auto 12. Qed.
Lemma int_kinds k : In k [KInteger; KGauge32; KTimeTicks; KCounter32; KCounter64] -> int_kind k = true.
Proof. intros [<-|[<-|[<-|[<-|[<-|[]]]]]]; reflexivity. Qed.
Lemma integer_decode_nil : integer_decodeContents [] = Err IndexError.
Proof. reflexivity. Qed.
Lemma primitive_contents cfg dec k c d : octet_string c -> primitive_kind k = true -> known cfg k = true ->
  reg_get (reg_of cfg) (kind_octet k) = Some d ->
  exists r, primitive_outcome k c r /\ match r with
    | Ok t => exists v, decodeContents dec d c = Ok v /\ tree_of v = Some t
    | Err e => decodeContents dec d c = Err e
    end.
Proof.
  intros Oc P A R. destruct (primitive_meth k P) as (m & M & Cases).
  rewrite <- known_available in A by exact P.
  destruct (read_decodable cfg k m M A) as (d' & R' & K & Md). rewrite R in R'. inversion R'; subst d'. clear R'.
  unfold decodeContents. rewrite Md. destruct Cases as [[-> I]|[[-> I]|[[Mm I]|[[-> I]|[-> ->]]]]].
  - assert (Ik : int_kind k = true) by (apply int_kinds; cbn in *; tauto).
    destruct c as [|b c']; [exists (Err IndexError); split; [constructor; exact Ik|reflexivity]|].
    exists (Ok (TInt k (twos_value (b :: c')))). split; [constructor; [exact I|discriminate]|].
    rewrite integer_decode_spec by (auto; discriminate). cbn [bind]. eexists; split; [reflexivity|]. cbn [tree_of]. rewrite K, Ik. reflexivity.
  - assert (Ik : int_kind k = true) by (apply int_kinds; cbn in *; tauto).
    destruct c as [|b c']; [exists (Err IndexError); split; [constructor; exact Ik|reflexivity]|].
    unfold counter_decodeContents. rewrite integer_decode_spec by (auto; discriminate). cbn [bind].
    destruct (Z.ltb_spec (twos_value (b :: c')) 0) as [L|L].
    + exists (Ok (TInt k (twos_value (b :: c') + 2 ^ 32))). split; [apply po_counter_neg; [exact I|discriminate|exact L]|].
      cbn [bind]. eexists; split; [reflexivity|]. cbn [tree_of]. rewrite K, Ik. reflexivity.
    + exists (Ok (TInt k (twos_value (b :: c')))). split; [apply po_counter; [exact I|discriminate|exact L]|].
      cbn [bind]. eexists; split; [reflexivity|]. cbn [tree_of]. rewrite K, Ik. reflexivity.
  - exists (Ok (TOct k c)). split; [constructor; exact I|]. destruct Mm as [-> | ->];
      (eexists; split; [reflexivity|]; cbn [tree_of]; rewrite K, I; reflexivity).
  - destruct c as [|b c'].
    + exists (Ok (TNull k)). split; [constructor; exact I|]. cbn. eexists; split; [reflexivity|]. cbn [tree_of]. rewrite K, I. reflexivity.
    + exists (Err ValueError). split; [constructor; exact I|reflexivity].
  - pose proof (oid_decode_outcome c Oc) as H. destruct c as [|b c'].
    + exists (Err ValueError). split; [constructor|]. rewrite H. reflexivity.
    + destruct H as [[Hb ->]|[(Hb & Hl & ->)|(Hb & Hl & gs & -> & Hg & ->)]].
      * exists (Err NotImplementedError). split; [constructor; exact Hb|reflexivity].
      * exists (Err IndexError). split; [constructor; assumption|reflexivity].
      * exists (Ok (TOid (b / 40 :: b mod 40 :: map b128_value gs))). split; [constructor; assumption|].
        cbn [bind]. eexists; split; [reflexivity|reflexivity].
Qed.
Lemma decode_single cfg d os v : os <> [] -> decode_one (reg_of cfg) (decode (reg_of cfg) d) os = Ok (v, []) ->
  decode (reg_of cfg) (S d) os = Ok [v].
Proof.
  intros N H. rewrite (decode_cons _ _ _ v []) by exact H. cbn. reflexivity.
Qed.
Lemma decode_single_err cfg d os e : os <> [] -> decode_one (reg_of cfg) (decode (reg_of cfg) d) os = Err e ->
  decode (reg_of cfg) (S d) os = Err e.
Proof.
  intros N H. cbn [decode]. destruct os as [|b os]; [contradiction|]. cbn [length decode_loop]. rewrite H. reflexivity.
Qed.
Lemma primitive_decode cfg depth k c os : octet_string c -> primitive_kind k = true -> tlv_octets (kind_octet k) c os ->
  if known cfg k then
    exists r, primitive_outcome k c r /\ match r with
      | Ok t => exists v, decode (reg_of cfg) (S depth) os = Ok [v] /\ tree_of v = Some t
      | Err e => decode (reg_of cfg) (S depth) os = Err e
      end
  else decode (reg_of cfg) (S depth) os = Err ValueError.
Proof.
  intros Oc P T.
  pose proof (decode_one_octets _ _ _ (kind_octet_low k) T (reg_of cfg) (decode (reg_of cfg) depth) []) as D. rewrite app_nil_r in D.
  assert (N : os <> []) by (destruct T as (L & _ & ->); discriminate).
  destruct (known cfg k) eqn:A.
  - destruct (primitive_meth k P) as (m & M & _). pose proof A as A'. rewrite <- known_available in A' by exact P.
    destruct (read_decodable cfg k m M A') as (d & R & _). rewrite R in D.
    destruct (primitive_contents cfg (decode (reg_of cfg) depth) k c d Oc P A R) as (r & Po & H). exists r. split; [exact Po|].
    destruct r as [t|e].
    + destruct H as (v & E & Tv). exists v. split; [|exact Tv]. apply decode_single; [exact N|]. rewrite D, E. reflexivity.
    + apply decode_single_err; [exact N|]. rewrite D, H. reflexivity.
  - rewrite (unknown_kind cfg k P A) in D. apply decode_single_err; [exact N|exact D].
Qed.

(** ** C57 *)
Lemma encode_seq_list c l : encode (VSeq c l) = (contents <- encode_list l ;; tlv c contents).
Proof.
  apply encode_seq.
Qed.
Lemma preencoded_encode : forall x y, preencoded x y -> encode x = encode y.
Proof.
  apply (preencoded_mut (fun x y => encode x = encode y) (fun xs ys => encode_list xs = encode_list ys)).
  - reflexivity.
  - intros x s E. rewrite E. reflexivity.
  - intros c xs ys _ IH. rewrite !encode_seq_list, IH. reflexivity.
  - reflexivity.
  - intros x y xs ys _ E _ IH. cbn [encode_list]. rewrite E, IH. reflexivity.
Qed.
Lemma encode_list_strs ss : encode_list (map VPyStr ss) = Ok (concat ss).
Proof. induction ss as [|s r IH]; [reflexivity|]. cbn [map encode_list encode bind concat]. rewrite IH. reflexivity. Qed.
Lemma varbind_empty_value c oid os L : (c = CVarBind \/ c = CVarBind_v2) -> encode (VOid (Some oid)) = Ok os -> encodeLength (zlen os) = Ok L ->
  varbind_init c (VOid (Some oid)) (VPyStr []) = Ok (VSeq c [VOid (Some oid); VPyStr []]) /\
  encode (VSeq c [VOid (Some oid); VPyStr []]) = Ok (0x30 :: L ++ os).
Proof.
  intros Hc E EL. split.
  - apply varbind_init_iff. split; [left; reflexivity|]. split; [right; exact Logic.I|reflexivity].
  - rewrite encode_seq_list. cbn [encode_list]. rewrite E. cbn [encode bind]. rewrite !app_nil_r. unfold tlv.
    destruct Hc as [-> | ->].
    + change (class_identifier CVarBind) with (Ok [0x30]). cbn [bind]. rewrite EL. reflexivity.
    + change (class_identifier CVarBind_v2) with (Ok [0x30]). cbn [bind]. rewrite EL. reflexivity.
Qed.
Lemma varbind_none_value c name v : (v = VNone \/ v = VPyInt 0 \/ v = VPyList []) -> is_oid name ->
  varbind_init c name v = Ok (VSeq c [name; v]) /\ forall os, encode (VSeq c [name; v]) <> Ok os.
Proof.
  intros Hv Hn. split.
  - apply varbind_init_iff. split; [left; exact Hn|]. split; [|reflexivity]. right. destruct Hv as [-> |[-> | ->]]; exact Logic.I.
  - intros os. rewrite encode_seq_list. cbn [encode_list]. destruct (encode name); cbn [bind]; [|discriminate].
    destruct Hv as [-> |[-> | ->]]; cbn [encode bind]; discriminate.
Qed.

(** ** C61, C62 *)
Lemma hash_consistent h a b x y : py_eq a b = Ok true -> py_hash h a = Some (Ok x) -> py_hash h b = Some (Ok y) -> x = y.
Proof.
  destruct a as [| | | |c z| | | |], b as [| | | |d w| | | |]; cbn [py_hash]; try discriminate.
  cbn [py_eq]. intros E. inversion E as [E']. apply Z.eqb_eq in E'. subst. congruence.
Qed.
Lemma hash_only_integers h v : is_object v -> ((exists x, py_hash h v = Some (Ok x)) <-> exists c z, v = VInt c z).
Proof.
  unfold is_object. destruct v; cbn [class_of py_hash]; intros N; try (elim N; reflexivity); split; intros H;
    try (destruct H as (x & H); discriminate); try (destruct H as (x & y & H); discriminate); eauto.
Qed.

Lemma HEX2_octet b : 0 <= b < 256 -> exists h l, hex2_upper b = [h; l] /\ 16 * HEX_value h + HEX_value l = b.
Proof.
  intros H.
  pose proof (octet_sweep (fun b => match hex2_upper b with [h; l] => 16 * HEX_value h + HEX_value l =? b | _ => false end) ltac:(vm_compute; reflexivity) b H) as S.
  cbv beta in S. destruct (hex2_upper b) as [|h [|l [|]]]; try discriminate. exists h, l. split; [reflexivity|lia].
Qed.
Lemma HEX_roundtrip os : octet_string os -> read_HEX (octetstring_hex os) = Some os /\ length (octetstring_hex os) = (2 * length os)%nat.
Proof.
  unfold octetstring_hex. induction 1 as [|b r Hb Hr [IH1 IH2]]; cbn [flat_map]; [split; reflexivity|].
  destruct (HEX2_octet b Hb) as (h & l & -> & V). cbn [app read_HEX length]. rewrite IH1, V, IH2. split; [reflexivity|lia].
Qed.
Lemma OCT_octet b : 0 <= b < 256 -> exists x y z, pad3 (map (Z.add 48) (digits_in_base 8 b)) = [x; y; z] /\ 
  64 * oct_digit x + 8 * oct_digit y + oct_digit z = b.
Proof.
  intros H.
  pose proof (octet_sweep (fun b => match pad3 (map (Z.add 48) (digits_in_base 8 b)) with [x; y; z] => 64 * oct_digit x + 8 * oct_digit y + oct_digit z =? b | _ => false end) ltac:(vm_compute; reflexivity) b H) as S.
  cbv beta in S. destruct (pad3 _) as [|x [|y [|z [|]]]]; try discriminate. exists x, y, z. split; [reflexivity|lia].
Qed.
Lemma OCT_roundtrip os : octet_string os -> read_oct (octetstring_oct os) = Some os.
Proof.
  unfold octetstring_oct. induction 1 as [|b r Hb Hr IH]; [reflexivity|]. cbn [flat_map].
  destruct (OCT_octet b Hb) as (x & y & z & -> & V). cbn [app read_oct]. rewrite IH, V. reflexivity.
Qed.
Lemma to_oid_faithful v w l : toObjectID v = Ok l -> toObjectID w = Ok l -> 
  match v, w with VInt _ x, VInt _ y => x = y | VOct _ x, VOct _ y => x = y | VOid x, VOid y => x = y | _, _ => True end.
Proof.
  destruct v as [| | | | |? [| | | | | | | |]|[]| |], w as [| | | | |? [| | | | | | | |]|[]| |]; cbn [toObjectID]; try discriminate; try exact (fun _ _ => Logic.I); congruence.
Qed.
Lemma encode_strs c ss : encode (VSeq c (map VPyStr ss)) = tlv c (concat ss).
Proof. rewrite encode_seq_list, encode_list_strs. reflexivity. Qed.
Lemma groups_unique gs : Forall b128_group gs -> forall hs, Forall b128_group hs -> concat gs = concat hs -> gs = hs.
Proof.
  assert (P : forall g, b128_group g -> forall h x y, b128_group h -> g ++ x = h ++ y -> g = h /\ x = y).
  { induction 1 as [b Hb|b r Hb Hr IH]; intros h x y Hh E; destruct Hh as [b' Hb'|b' r' Hb' Hr']; cbn [app] in E; inversion E; subst; try lia.
    - split; reflexivity.
    - destruct (IH r' x y Hr' H1) as [-> ->]. split; reflexivity. }
  induction 1 as [|g gs Hg Hgs IH]; intros hs Hhs E; destruct Hhs as [|h hs Hh Hhs]; cbn [concat] in E.
  - reflexivity.
  - destruct Hh; discriminate.
  - destruct Hg; discriminate.
  - destruct (P g Hg h _ _ Hh E) as [-> E']. f_equal. apply IH; assumption.
Qed.
Lemma groups_last gs b : Forall b128_group gs -> b < 128 -> last (b :: concat gs) 0 < 128.
Proof.
  intros F. revert b. induction F as [|g gs Hg Fg IH]; intros b Hb; cbn [concat].
  - exact Hb.
  - assert (Q : forall b, last (b :: g ++ concat gs) 0 < 128).
    { clear b Hb. induction Hg as [c Hc|c r Hc Hr IHr]; intros b; cbn [app].
      - specialize (IH c (proj2 Hc)). exact IH.
      - specialize (IHr c). exact IHr. }
    apply Q.
Qed.
Lemma primitive_unique k c r s : octet_string c -> primitive_outcome k c r -> primitive_outcome k c s -> r = s.
Proof.
  intros Oc A B. destruct A; inversion B; subst; try reflexivity; try lia; try congruence;
    try (exfalso; match goal with H : In ?k _ |- _ => cbn in H; intuition (subst; discriminate) end);
    try (match goal with H : ?f ?k = true, G : ?g ?k = true |- _ => destruct k; discriminate end);
    try discriminate.
  all: try (match goal with H : Forall b128_group ?g, L : ?b < 128, M : 128 <= last (?b :: concat ?g) 0 |- _ => pose proof (groups_last g b H L); lia end).
  all: try (match goal with H : Forall b128_group ?g, G : Forall b128_group ?h, E : concat ?g = concat ?h |- _ => rewrite (groups_unique g H h G E); reflexivity
            | H : Forall b128_group ?g, G : Forall b128_group ?h, E : concat ?h = concat ?g |- _ => rewrite (groups_unique g H h G (eq_sym E)); reflexivity end).
  all: exfalso; cbn [In] in *; destruct k; intuition discriminate.
Qed.
