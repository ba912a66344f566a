(** * Specification: what value an object has at a moment, and what user code did.

    [now h i v]: in heap [h], the object (or plain value) [i] has the value [v] - the tree got by following references.
    [stands S W h i v] is the same with two additions, for objects that are partly the user's: only the objects in [S] are
    looked into, and the others are given their value by [W]. *)
From Coq Require Import ZArith List Bool.
From Verif Require Import PyBase Classes Values Codec Manager Heap.
Import ListNotations.
Open Scope Z_scope.

Inductive stands (S : loc -> Prop) (W : loc -> val -> Prop) (h : heap) : item -> val -> Prop :=
| st_none : stands S W h INone VNone
| st_int z : stands S W h (IInt z) (VPyInt z)
| st_str s : stands S W h (IStr s) (VPyStr s)
| st_given l v : W l v -> stands S W h (IRef l) v
| st_list l is vs : S l -> nth_error h l = Some (PList is) -> stand_all S W h is vs -> stands S W h (IRef l) (VPyList vs)
| st_integer l c d z : S l -> nth_error h l = Some (PObj c d) -> kind_of c = KInt -> assoc d Avalue = Some (IInt z) -> stands S W h (IRef l) (VInt c z)
| st_octets l c d i v : S l -> nth_error h l = Some (PObj c d) -> kind_of c = KOct -> assoc d Avalue = Some i -> stands S W h i v ->
    stands S W h (IRef l) (VOct c v)
| st_noarcs l c d : S l -> nth_error h l = Some (PObj c d) -> kind_of c = KOid -> assoc d Avalue = Some INone -> stands S W h (IRef l) (VOid None)
| st_arcs l c d a zs : S l -> nth_error h l = Some (PObj c d) -> kind_of c = KOid -> assoc d Avalue = Some (IRef a) ->
    S a -> nth_error h a = Some (PList (map IInt zs)) -> stands S W h (IRef l) (VOid (Some zs))
| st_null l c d : S l -> nth_error h l = Some (PObj c d) -> kind_of c = KNull -> stands S W h (IRef l) (VNull c)
| st_seq l c d a is vs : S l -> nth_error h l = Some (PObj c d) -> kind_of c = KSeq -> assoc d Avalue = Some (IRef a) ->
    S a -> nth_error h a = Some (PList is) -> stand_all S W h is vs -> stands S W h (IRef l) (VSeq c vs)
| st_msg l c d a b e vs : S l -> nth_error h l = Some (PObj c d) -> kind_of c = KMsg ->
    assoc d Aversion = Some a -> assoc d Acommunity = Some b -> assoc d Adata = Some e ->
    stand_all S W h [a; b; e] vs -> stands S W h (IRef l) (VSeq c vs)
with stand_all (S : loc -> Prop) (W : loc -> val -> Prop) (h : heap) : list item -> list val -> Prop :=
| sa_nil : stand_all S W h [] []
| sa_cons i v is vs : stands S W h i v -> stand_all S W h is vs -> stand_all S W h (i :: is) (v :: vs).

Definition now (h : heap) : item -> val -> Prop := stands (fun _ => True) (fun _ _ => False) h.
Definition all_now (h : heap) : list item -> list val -> Prop := stand_all (fun _ => True) (fun _ _ => False) h.

(** [l] leads to [x] in [h] *)
Inductive leads (h : heap) : loc -> loc -> Prop :=
| leads_self l : leads h l l
| leads_step l c x y : nth_error h l = Some c -> In x (refs c) -> leads h x y -> leads h l y.

(** User code never changed object [l]. *)
Definition never_written (l : loc) (tr : list glabel) : Prop := forall c, ~ In (UWrite l c) tr.

(** [vbl], a list or a VarBindList (or another Sequence), holds exactly the objects [vbs], which are VarBinds. *)
Definition holds (h : heap) (vbl : item) (vbs : list loc) : Prop :=
  (exists l, vbl = IRef l /\
    (nth_error h l = Some (PList (map IRef vbs)) \/
     exists c d a, nth_error h l = Some (PObj c d) /\ kind_of c = KSeq /\ assoc d Avalue = Some (IRef a) /\ nth_error h a = Some (PList (map IRef vbs)))) /\
  forall x, In x vbs -> exists c d, nth_error h x = Some (PObj c d) /\ (c = CVarBind \/ c = CVarBind_v2).

(** How many objects a value has: encode() never recurses deeper than that. *)
Fixpoint vsize (v : val) : nat :=
  match v with
  | VPyList l | VSeq _ l => S (fold_right (fun x n => vsize x + n)%nat 0%nat l)
  | VOct _ v => S (vsize v)
  | _ => 1%nat
  end.
Definition message_val (m : message) : val := VSeq (m_cls m) [m_version m; m_community m; m_data m].
(** The octets encode() returns for a message. *)
Definition octets_of (msg : message) : res str := snd (message_encode msg).
(** A queued message was encoded as [msg]: if that gave octets at all they are those of [msg], and if Python allowed enough recursion the outcome
    is that of encoding [msg]. *)
Definition sent_as (msg : message) (fuel : nat) (o : res str) : Prop :=
  (forall os, o = Ok os -> octets_of msg = Ok os) /\ ((vsize (message_val msg) <= fuel)%nat -> o = octets_of msg).
(** Call [a] of the value model (Manager.v), on a manager of class [f] whose next request id is [id], returns and queues [msg] for [dst]. *)
Definition queues (f : flavour) (id : Z) (a : call) (msg : message) (dst : address) : Prop :=
  exists m r, do_call f a (mkMgr id [] []) = (m, Ok r) /\ outbound m = [(Some msg, dst)].
(** User code holds every object an argument refers to. *)
Definition has (s : hstate) (i : item) : Prop := forall l, In l (item_refs i) -> In l (known s).
(** Not a Message object. *)
Definition plain (v : val) : Prop := match v with VSeq c _ => kind_of c = KSeq | _ => True end.
(** The argument [value] of snmpSet, with type [ty], is used up by the call: it is a number, a str or None, or [ty] asks for an OBJECT IDENTIFIER,
    which is copied. *)
Definition copied (ty : Z) (value : item) : Prop :=
  match reg_get reg1905 ty with
  | Some c => (issubclass c CSequence = false /\ item_refs value = []) \/ c = CObjectID
  | None => False
  end.
(** Call [a] in state [s] leads to [s1]: it returned a new object [r] (the request id), and put a new message object [m] on the outbound queue. *)
Definition request_made (sys : system) (s : hstate) (a : hcall) (dst : address) (s1 : hstate) (m r : loc) : Prop :=
  gstep sys s (UCall a) = Some s1 /\ (length (hp s) <= m < length (hp s1))%nat /\ (length (hp s) <= r < length (hp s1))%nat /\ h_out s1 = h_out s ++ [(IRef m, dst)] /\
  h_log s1 = h_log s ++ [GQueued (IRef m) dst; GReturned (Ok (IRef r))].
(** The calls that make a request: destination and callback. *)
Definition request_of (a : hcall) : option (address * cbval) :=
  match a with HGet _ dst cb _ _ | HGetNext _ dst cb _ _ | HSetBindings _ dst cb _ | HSetTyped _ _ _ dst cb _ _ => Some (dst, cb) | _ => None end.
(** The attributes an instance has by name are the elements of its .value, in the order of the parameters of its constructor. *)
Definition parts_named (c : cls) (d : list (attr * item)) (is : list item) : Prop :=
  (issubclass c CVarBind = true -> assoc d AobjectID = nth_error is 0 /\ assoc d AobjectValue = nth_error is 1) /\
  (issubclass c CPDU = true -> assoc d ArequestID = nth_error is 0 /\ assoc d AerrorStatus = nth_error is 1 /\ assoc d AerrorIndex = nth_error is 2 /\ assoc d AvarBindList = nth_error is 3) /\
  (issubclass c CBulkPDU = true -> assoc d ArequestID = nth_error is 0 /\ assoc d AnonRepeaters = nth_error is 1 /\ assoc d AmaxRepetitions = nth_error is 2 /\ assoc d AvarBindList = nth_error is 3) /\
  (issubclass c CTrapPDU = true -> assoc d Aenterprise = nth_error is 0 /\ assoc d AagentAddr = nth_error is 1 /\ assoc d AgenericTrap = nth_error is 2 /\ assoc d AspecificTrap = nth_error is 3 /\
     assoc d Atimestamp = nth_error is 4 /\ assoc d AvarBindList = nth_error is 5).
Definition well_named (h : heap) (c : cell) : Prop :=
  match c with
  | PObj k d => kind_of k = KSeq -> exists a is, assoc d Avalue = Some (IRef a) /\ nth_error h a = Some (PList is) /\ parts_named k d is
  | PList _ => True
  end.
