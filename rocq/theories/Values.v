(** * Python values handled by libsnmp, constructors and small methods. *)
From Coq Require Import ZArith List Bool.
From Verif Require Import PyBase Classes.
Import ListNotations.
Open Scope Z_scope.

(** A Python value.  [VInt c z] is an instance of an Integer-derived class [c]
    with [.value = z]; [VOct c v] an instance of an OctetString-derived class whose
    [.value] is [v] (a str in all normal uses); [VOid] an ObjectID ([.value] may be
    None); [VNull c] a Null-derived object; [VSeq c l] an instance of a
    Sequence-derived class with [.value = l].  The named attributes of VarBind, PDU,
    BulkPDU and TrapPDU objects (rfc1157.py 71-73, 146-151, 237-250; rfc1905.py
    111-121, 152-162) are the elements of that list, in order.
    Messages are separate (file [Codec]) because their attributes and their
    [.value] differ (rfc1157.py 91-108). *)
Inductive val :=
| VNone
| VPyInt (z : Z)
| VPyStr (s : str)
| VPyList (l : list val)
| VInt (c : cls) (z : Z)
| VOct (c : cls) (v : val)
| VOid (l : option (list Z))
| VNull (c : cls)
| VSeq (c : cls) (l : list val).

(** type(v), for instances of the library's classes. *)
Definition class_of (v : val) : option cls :=
  match v with
  | VNone | VPyInt _ | VPyStr _ | VPyList _ => None
  | VInt c _ | VOct c _ | VNull c | VSeq c _ => Some c
  | VOid _ => Some CObjectID
  end.
(** isinstance(v, c) *)
Definition isinstance (v : val) (c : cls) : bool :=
  match class_of v with Some d => issubclass d c | None => false end.

(** bool(v): only ObjectID (rfc1155.py 604-612) and Sequence (815-816) define
    __len__; no class defines __bool__, so all other objects are truthy. *)
Definition truthy (v : val) : bool :=
  match v with
  | VNone => false
  | VPyInt z => negb (z =? 0)
  | VPyStr s => match s with [] => false | _ => true end
  | VPyList l => match l with [] => false | _ => true end
  | VInt _ _ | VOct _ _ | VNull _ => true
  | VOid None => false
  | VOid (Some l) => match l with [] => false | _ => true end
  | VSeq _ l => match l with [] => false | _ => true end
  end.

(** len(v) *)
Definition py_len (v : val) : res Z :=
  match v with
  | VPyStr s => Ok (zlen s)
  | VPyList l => Ok (zlen l)
  | VOid None => Ok 0
  | VOid (Some l) => Ok (zlen l)
  | VSeq _ l => Ok (zlen l)
  | _ => Err TypeError
  end.

(** v[i], i an int: Sequence.__getitem__ (rfc1155.py 818-819), ObjectID.__getitem__
    (614-616).  A VOid None subscripts None: AttributeError (None has no
    __getitem__ attribute). *)
Definition py_getitem (v : val) (i : Z) : res val :=
  match v with
  | VPyStr s => c <- py_index s i ;; Ok (VPyStr [c])
  | VPyList l => py_index l i
  | VOid (Some l) => z <- py_index l i ;; Ok (VPyInt z)
  | VOid None => Err AttributeError
  | VSeq _ l => py_index l i
  | _ => Err TypeError
  end.

(** for x in v: old-style iteration through __getitem__ for Sequence and ObjectID. *)
Definition py_iter (v : val) : res (list val) :=
  match v with
  | VPyStr s => Ok (map (fun c => VPyStr [c]) s)
  | VPyList l => Ok l
  | VOid (Some l) => Ok (map VPyInt l)
  | VOid None => Err AttributeError
  | VSeq _ l => Ok l
  | _ => Err TypeError
  end.

(** int(v): Integer.__int__ (rfc1155.py 310-311); ints and strs by Python. *)
Definition py_int (v : val) : res Z :=
  match v with
  | VPyInt z => Ok z
  | VPyStr s => py_int_of_str s
  | VInt _ z => Ok z
  | _ => Err TypeError
  end.

(** Integer.__init__ (rfc1155.py 297-305), inherited by every Integer-derived class
    (TimeTicks.__init__ 1047-1052 and rfc1905.ErrorStatus.__init__ 68-97 call it; the
    latter's table updates are modelled in [ErrorText]).  Comparing an int with
    anything but an int raises TypeError: in particular an Integer object is
    rejected. *)
Definition integer_init (c : cls) (value : val) : res val :=
  match value with
  | VPyInt v => if (MINVAL c <=? v) && (v <=? MAXVAL c) then Ok (VInt c v) else Err ValueError
  | _ => Err TypeError
  end.

(** OctetString.__init__ (rfc1155.py 519-522): any value is accepted and copied. *)
Definition octetstring_init (c : cls) (value : val) : val := VOct c value.

(** rfc1902.OctetString.__init__ (rfc1902.py 60-64): the name OctetString inside the
    class resolves at call time to the new class itself, so it calls itself.
    [limit] is the number of nested calls the interpreter still allows. *)
Fixpoint octetstring_v2_init (limit : nat) (value : str) : res val :=
  match limit with
  | O => Err RecursionError
  | S n => if 65535 <? zlen value then Err ValueError
           else octetstring_v2_init n value
  end.

(** ObjectID.__init__ (rfc1155.py 557-593). *)
Definition oid_of_str (s : str) : res (list Z) :=
  let value := strip (Z.eqb 46) s in
  mapM (fun subid =>
          number <- py_int_of_str subid ;;
          if (number <? 0) || (0x7FFFFFFF <? number) then Err ValueError
          else Ok number)
       (py_split 46 value).
(** The list/tuple case stores the elements unchecked.  Simplification: only lists
    whose elements are ints are representable; any other element is treated as a
    TypeError at construction (Python would fail later, when the arc is used). *)
Definition val_to_int (v : val) : res Z :=
  match v with VPyInt z => Ok z | _ => Err TypeError end.
Definition oid_init (value : val) : res val :=
  match value with
  | VPyStr s => l <- oid_of_str s ;; Ok (VOid (Some l))
  | VPyList l => zs <- mapM val_to_int l ;; Ok (VOid (Some zs))
  | VNone => Ok (VOid None)
  | VPyInt z => Ok (VOid (Some [z]))
  | VOid (Some l) => Ok (VOid (Some l))
  | VOid None => Err TypeError                (* None[:] *)
  | _ => Err TypeError
  end.
(** ObjectID.__str__ (rfc1155.py 595-602). *)
Definition oid_str (v : option (list Z)) : str :=
  match v with
  | Some l => 46 :: py_join 46 (map py_str_of_int l)
  | None => []
  end.
(** ObjectID.__len__ (604-612) *)
Definition oid_len (v : option (list Z)) : Z :=
  match v with Some l => zlen l | None => 0 end.
(** ObjectID.__getitem__ (614-619): int key, slice key (step 1 only). *)
Definition oid_getitem (l : list Z) (i : Z) : res Z := py_index l i.
Definition oid_getslice (l : list Z) (lo hi : option Z) : list Z := py_slice l lo hi.
(** ObjectID.__delitem__ (621-623), int key. *)
Definition oid_delitem (l : list Z) (i : Z) : res (list Z) := py_delitem l i.
(** ObjectID.copy (625-629) *)
Definition oid_copy (v : option (list Z)) : res val :=
  match v with Some l => oid_init (VPyList (map VPyInt l)) | None => oid_init VNone end.
(** ObjectID.append (631-636), with an int argument. *)
Definition oid_append (l : list Z) (subid : Z) : list Z := l ++ [subid].
(** ObjectID.extend (638-644), with an ObjectID or a list. *)
Definition oid_extend (l other : list Z) : list Z := l ++ other.
(** ObjectID.isPrefixOf (646-661): the loop over range(len(self)). *)
Fixpoint oid_prefix_loop (self other : list Z) : bool :=
  match self, other with
  | [], _ => true
  | x :: s, y :: o => if negb (x =? y) then false else oid_prefix_loop s o
  | _ :: _, [] => true      (* not reached: lengths are compared first *)
  end.
Definition oid_isPrefixOf (self other : val) : res bool :=
  match self, other with
  | VOid a, VOid b =>
      if oid_len b <? oid_len a then Ok false
      else Ok (oid_prefix_loop (opt_or [] a) (opt_or [] b))
  | _, _ => Err TypeError
  end.

(** IPAddress.__init__ (rfc1155.py 898-919); also NetworkAddress. *)
Definition ipaddress_init (c : cls) (value : val) : res val :=
  match value with
  | VPyStr s =>
      let listform := py_split 46 s in
      if negb (zlen listform =? 4) then Err ValueError
      else chars <- mapM (fun item => n <- py_int_of_str item ;; py_chr n) listform ;;
           Ok (VOct c (VPyStr chars))
  | VPyList l => if negb (zlen l =? 4) then Err ValueError else Ok (VOct c (VPyList l))
  | _ => Ok (VOct c (VPyStr []))
  end.
(** IPAddress.__str__ (rfc1155.py 928-933), for a str value. *)
Definition ipaddress_str (s : str) : str := py_join 46 (map py_str_of_int s).

(** Sequence.__init__ (rfc1155.py 796-801) *)
Definition sequence_init (l : list val) : val := VSeq CSequence l.
(** SequenceOf.append (879-884) *)
Definition sequenceof_append (componentType : cls) (l : list val) (v : val) : res (list val) :=
  if negb (isinstance v componentType) then Err ValueError else Ok (l ++ [v]).
(** SequenceOf.__init__ (864-877): [if value:] then append each item. *)
Fixpoint sequenceof_appends (componentType : cls) (acc : list val) (items : list val) : res (list val) :=
  match items with
  | [] => Ok acc
  | x :: r => acc' <- sequenceof_append componentType acc x ;; sequenceof_appends componentType acc' r
  end.
Definition sequenceof_init (c componentType : cls) (value : val) : res val :=
  if truthy value then
    (items <- py_iter value ;; l <- sequenceof_appends componentType [] items ;; Ok (VSeq c l))
  else Ok (VSeq c []).

(** VarBind.__init__ (rfc1157.py 63-73); also rfc1905.VarBind (rfc1905.py 22-25). *)
Definition is_asn1 (v : val) : bool := isinstance v CAsn1Object.
Definition varbind_init (c : cls) (name value : val) : res val :=
  if truthy name && negb (isinstance name CObjectID) then Err ValueError
  else if truthy value && negb (is_asn1 value) then Err ValueError
  else Ok (VSeq c [name; value]).

(** rfc1157.VarBindList.__init__ (rfc1157.py 80-82): componentType is rfc1157.VarBind. *)
Definition varbindlist_init (value : val) : res val := sequenceof_init CVarBindList CVarBind value.
(** max_bindings: rfc1905.py 19 *)
Definition max_bindings : Z := 2147483647.
(** rfc1905.VarBindList.__init__ (rfc1905.py 52-55) *)
Definition varbindlist_v2_init (value : val) : res val :=
  n <- py_len value ;;
  if max_bindings <? n then Err ValueError
  else sequenceof_init CVarBindList_v2 CVarBind value.

(** rfc1157.PDU.__init__ (rfc1157.py 138-151) *)
Definition pdu_v1_init (c : cls) (requestID errorStatus errorIndex varBindList : val) : res val :=
  r <- integer_init CInteger requestID ;;
  e <- integer_init CErrorStatus errorStatus ;;
  i <- integer_init CInteger errorIndex ;;
  v <- varbindlist_init varBindList ;;
  Ok (VSeq c [r; e; i; v]).
(** errorIndex > max_bindings on a Python value: TypeError unless it is an int. *)
Definition gt_max_bindings (v : val) : res bool :=
  match v with VPyInt z => Ok (max_bindings <? z) | _ => Err TypeError end.
(** rfc1905.PDU.__init__ (rfc1905.py 105-121); rfc1157.PDU.__init__ with default
    arguments (first statement) cannot fail. *)
Definition pdu_v2_init (c : cls) (requestID errorStatus errorIndex varBindList : val) : res val :=
  big <- gt_max_bindings errorIndex ;;
  if (big : bool) then Err ValueError else
  r <- integer_init CInteger32 requestID ;;
  e <- integer_init CErrorStatus_v2 errorStatus ;;
  i <- integer_init CInteger errorIndex ;;
  v <- varbindlist_v2_init varBindList ;;
  Ok (VSeq c [r; e; i; v]).
(** rfc1905.BulkPDU.__init__ (rfc1905.py 144-162) *)
Definition bulkpdu_init (c : cls) (requestID nonRepeaters maxRepetitions varBindList : val) : res val :=
  big <- gt_max_bindings nonRepeaters ;;
  if (big : bool) then Err ValueError else
  big' <- gt_max_bindings maxRepetitions ;;
  if (big' : bool) then Err ValueError else
  r <- integer_init CInteger32 requestID ;;
  n <- integer_init CInteger nonRepeaters ;;
  m <- integer_init CInteger maxRepetitions ;;
  v <- varbindlist_v2_init varBindList ;;
  Ok (VSeq c [r; n; m; v]).
(** The __init__ that type(self)(...) runs for a PDU class: rfc1905.PDU's for its
    subclasses, else rfc1157.PDU's (MRO). *)
Definition pdu_init (c : cls) : val -> val -> val -> val -> res val :=
  if issubclass c CPDU_v2 then pdu_v2_init c else pdu_v1_init c.
(** TrapPDU.__init__ (rfc1157.py 233-250): no checks. *)
Definition trappdu_init (enterprise agentAddr genericTrap specificTrap timestamp varBindList : val) : val :=
  VSeq CTrapPDU [enterprise; agentAddr; genericTrap; specificTrap; timestamp; varBindList].

(** toObjectID: rfc1155.py 282-283, 507-508, 544-545, 756-757, 937-938. *)
Definition toObjectID (v : val) : res (list Z) :=
  match v with
  | VInt _ z => Ok [z]
  | VOct _ (VPyStr s) => Ok s
  | VOct _ _ => Err TypeError
  | VOid (Some l) => Ok l
  | VNull _ | VSeq _ _ => Err TypeError
  | _ => Err AttributeError
  end.

(** ** Arithmetic on integer objects *)

(** The operand conversion of Integer.__add__/__sub__ (rfc1155.py 344-345, 350-351). *)
Definition coerce_operand (c : cls) (v : val) : res Z :=
  if isinstance v c then py_int v
  else (w <- integer_init c v ;; py_int w).
(** Integer.__add__ (rfc1155.py 341-347) *)
Definition integer_add (c : cls) (value : Z) (integer : val) : res val :=
  i <- coerce_operand c integer ;; integer_init c (VPyInt (value + i)).
(** Integer.__sub__ (rfc1155.py 349-352): it adds. *)
Definition integer_sub (c : cls) (value : Z) (integer : val) : res val :=
  i <- coerce_operand c integer ;; integer_init c (VPyInt (value + i)).
(** Counter.__add__ (rfc1155.py 964-975), with an int operand: updates self.value in
    place (the new value is returned here) and returns None. *)
Definition counter_add (c : cls) (value : Z) (v : Z) : Z * val :=
  ((if MAXVAL c <? value + v then v - (MAXVAL c - value) else value + v), VNone).
(** Guage.__add__ (rfc1155.py 1008-1017), Guage.__sub__ (1019-1028). *)
Definition guage_add (c : cls) (value : Z) (v : Z) : Z * val :=
  ((if MAXVAL c <? value + v then MAXVAL c else value + v), VNone).
Definition guage_sub (c : cls) (value : Z) (v : Z) : Z * val :=
  ((if value - v <? MINVAL c then MINVAL c else value - v), VNone).
