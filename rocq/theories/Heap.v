(** * Objects, references and sharing.

    The other files of the model treat objects as values.  Here they are what they are in Python: cells of a heap, referred to by
    variables, by attributes of other objects and by elements of lists.  The library queues the message objects it makes and encodes
    them later, when run() sends them; it hands out objects that it goes on using (the request id; the received message); and it has
    functions with a list as a default argument.  What user code does with references it holds, between two calls, is arbitrary.

    User code is described by what it can get at: [known] is the set of objects it holds a reference to.  It may make objects, read
    (and so come to know what an object it knows refers to), and overwrite any object it knows with anything made of objects it
    knows.  Simplifications: user code does not touch the attributes of the manager itself; it does not use the classes' and
    functions' own dictionaries (so it cannot get at the default arguments by name); the intermediate objects of a constructor
    that raises are not kept (nobody can refer to them); one manager, one thread. *)
From Coq Require Import ZArith List Bool.
From Verif Require Import PyBase Classes Values Codec Manager.
Import ListNotations.
Open Scope Z_scope.

Definition loc := nat.
(** What a variable, an attribute or an element of a list holds. *)
Inductive item := INone | IInt (z : Z) | IStr (s : str) | IRef (l : loc).
Inductive attr :=
| Avalue | AobjectID | AobjectValue | ArequestID | AerrorStatus | AerrorIndex | AnonRepeaters | AmaxRepetitions | AvarBindList
| Aversion | Acommunity | Adata | Aenterprise | AagentAddr | AgenericTrap | AspecificTrap | Atimestamp.
Definition attr_eqb (a b : attr) : bool :=
  match a, b with
  | Avalue, Avalue | AobjectID, AobjectID | AobjectValue, AobjectValue | ArequestID, ArequestID | AerrorStatus, AerrorStatus
  | AerrorIndex, AerrorIndex | AnonRepeaters, AnonRepeaters | AmaxRepetitions, AmaxRepetitions | AvarBindList, AvarBindList
  | Aversion, Aversion | Acommunity, Acommunity | Adata, Adata | Aenterprise, Aenterprise | AagentAddr, AagentAddr
  | AgenericTrap, AgenericTrap | AspecificTrap, AspecificTrap | Atimestamp, Atimestamp => true
  | _, _ => false
  end.
(** A Python list, or an instance of a class of the library with its attributes. *)
Inductive cell := PList (l : list item) | PObj (c : cls) (d : list (attr * item)).
Definition heap := list cell.

(** ** Reading *)

Fixpoint assoc (d : list (attr * item)) (a : attr) : option item :=
  match d with [] => None | (b, i) :: r => if attr_eqb b a then Some i else assoc r a end.
(** o.a for an instance: its own attribute; [value] is also an attribute of the class Asn1Object, None (rfc1155.py 77).
    Simplification: the class attribute Sequence.value (rfc1155.py 794) is not modelled; __init__ always hides it (801). *)
Definition attr_of (h : heap) (v : item) (a : attr) : res item :=
  match v with
  | IRef l => match nth_error h l with
              | Some (PObj _ d) => match assoc d a with
                                   | Some i => Ok i
                                   | None => match a with Avalue => Ok INone | _ => Err AttributeError end
                                   end
              | _ => Err AttributeError
              end
  | _ => Err AttributeError
  end.
(** The elements, where a Python list is needed. *)
Definition list_at (h : heap) (v : item) : res (list item) :=
  match v with
  | IRef l => match nth_error h l with Some (PList l) => Ok l | _ => Err TypeError end
  | _ => Err TypeError
  end.
Definition class_at (h : heap) (v : item) : option cls :=
  match v with IRef l => match nth_error h l with Some (PObj c _) => Some c | _ => None end | _ => None end.
(** isinstance(v, c) *)
Definition is_a (h : heap) (v : item) (c : cls) : bool :=
  match class_at h v with Some d => issubclass d c | None => false end.
(** The elements of an ObjectID (rfc1155.py 604-619) or Sequence (815-819) or list or str: what "for x in v" goes through. *)
Definition elems (h : heap) (v : item) : res (list item) :=
  match v with
  | IStr s => Ok (map (fun c => IStr [c]) s)
  | IRef l =>
      match nth_error h l with
      | Some (PList l) => Ok l
      | Some (PObj c _) =>
          if issubclass c CObjectID then
            i <- attr_of h v Avalue ;; match i with INone => Err AttributeError | _ => list_at h i end
          else if issubclass c CSequence then i <- attr_of h v Avalue ;; list_at h i
          else Err TypeError
      | None => Err TypeError
      end
  | _ => Err TypeError
  end.
(** len(v) *)
Definition h_len (h : heap) (v : item) : res Z :=
  match v with
  | IStr s => Ok (zlen s)
  | IRef l =>
      match nth_error h l with
      | Some (PList l) => Ok (zlen l)
      | Some (PObj c _) =>
          if issubclass c CObjectID then
            i <- attr_of h v Avalue ;; match i with INone => Ok 0 | _ => x <- list_at h i ;; Ok (zlen x) end
          else if issubclass c CSequence then i <- attr_of h v Avalue ;; x <- list_at h i ;; Ok (zlen x)
          else Err TypeError
      | None => Err TypeError
      end
  | _ => Err TypeError
  end.
(** bool(v): see [truthy] in Values.v *)
Definition h_truthy (h : heap) (v : item) : res bool :=
  match v with
  | INone => Ok false
  | IInt z => Ok (negb (z =? 0))
  | IStr s => Ok (negb (zlen s =? 0))
  | IRef l =>
      match nth_error h l with
      | Some (PObj c _) =>
          if issubclass c CObjectID || issubclass c CSequence then n <- h_len h v ;; Ok (negb (n =? 0)) else Ok true
      | _ => n <- h_len h v ;; Ok (negb (n =? 0))
      end
  end.

(** ** encode() *)

(** Which encodeContents a class has (rfc1155.py 182-187, 360-399, 527-530, 663-692, 772-773, 827-840; rfc1157.py 103-108). *)
Inductive kind := KInt | KOct | KOid | KNull | KMsg | KSeq | KNothing.
Definition kind_of (c : cls) : kind :=
  if issubclass c CInteger then KInt else if issubclass c COctetString then KOct else if issubclass c CObjectID then KOid
  else if issubclass c CNull then KNull else if issubclass c CMessage then KMsg else if issubclass c CSequence then KSeq else KNothing.
Definition int_item (i : item) : res Z := match i with IInt z => Ok z | _ => Err TypeError end.
(** Asn1Object.encode (rfc1155.py 82-95) on the objects as they are now; [fuel] is the recursion Python still allows.  A str in a Sequence is copied
    (rfc1155.py 835); anything else without encode raises AttributeError.  Simplifications: values of a wrong type raise
    TypeError; that encoding a Message inside another object rebuilds the .value of that Message is left out (nothing reads it). *)
Fixpoint h_encode (fuel : nat) (h : heap) (v : item) : res str :=
  match fuel with
  | O => Err RecursionError
  | S f =>
      match v with
      | IStr s => Ok s
      | INone | IInt _ => Err AttributeError
      | IRef l =>
          match nth_error h l with
          | Some (PObj c _) =>
              let all := fix go (l : list item) : res str :=
                match l with [] => Ok [] | x :: r => a <- h_encode f h x ;; b <- go r ;; Ok (a ++ b) end in
              contents <-
                match kind_of c with
                | KInt => i <- attr_of h v Avalue ;; z <- int_item i ;; integer_encodeContents z
                | KOct => i <- attr_of h v Avalue ;; match i with IStr s => Ok s | _ => Err TypeError end
                | KOid => i <- attr_of h v Avalue ;; is <- list_at h i ;; zs <- mapM int_item is ;; oid_encodeContents (Some zs)
                | KNull => Ok []
                | KMsg => a <- attr_of h v Aversion ;; b <- attr_of h v Acommunity ;; d <- attr_of h v Adata ;; all [a; b; d]
                | KSeq => i <- attr_of h v Avalue ;; is <- list_at h i ;; all is
                | KNothing => Err NotImplementedError
                end ;;
              tlv c contents
          | _ => Err AttributeError
          end
      end
  end.

(** ** Making objects *)

(** A computation that may change the heap and may raise. *)
Definition H (A : Type) := heap -> heap * res A.
Definition hret {A} (a : A) : H A := fun h => (h, Ok a).
Definition rd {A} (f : heap -> res A) : H A := fun h => (h, f h).
Definition hlift {A} (r : res A) : H A := fun h => (h, r).
Definition hbind {A B} (x : H A) (f : A -> H B) : H B :=
  fun h => match x h with (h', Ok a) => f a h' | (h', Err e) => (h', Err e) end.
Notation "x <== r ;; k" := (hbind r (fun x => k)) (at level 61, r at next level, right associativity).
Fixpoint hmapM {A B} (f : A -> H B) (l : list A) : H (list B) :=
  match l with [] => hret [] | x :: r => y <== f x ;; ys <== hmapM f r ;; hret (y :: ys) end.
Definition new (c : cell) : H item := fun h => (h ++ [c], Ok (IRef (length h))).

(** The lists that are default arguments, made when the modules are imported: of rfc1157.VarBindList.__init__ (rfc1157.py 80),
    rfc1157.PDU.__init__ (138), rfc1905.VarBindList.__init__ (rfc1905.py 52), rfc1905.PDU.__init__ (105), BulkPDU.__init__ (144). *)
Definition default_vbl : item := IRef 0%nat.
Definition default_pdu : item := IRef 1%nat.
Definition default_vbl2 : item := IRef 2%nat.
Definition default_pdu2 : item := IRef 3%nat.
Definition default_bulk : item := IRef 4%nat.
Definition heap0 : heap := [PList []; PList []; PList []; PList []; PList []].

(** Integer.__init__ (rfc1155.py 297-305) *)
Definition h_integer (c : cls) (value : item) : H item :=
  match value with
  | IInt z => if (MINVAL c <=? z) && (z <=? MAXVAL c) then new (PObj c [(Avalue, IInt z)]) else hlift (Err ValueError)
  | _ => hlift (Err TypeError)
  end.
(** copy.copy(v): strings, ints and None are themselves; a list or an object is copied, its elements or attributes are not. *)
Definition py_copy (v : item) : H item :=
  match v with
  | IRef l => fun h => match nth_error h l with Some c => new c h | None => (h, Err TypeError) end
  | _ => hret v
  end.
(** OctetString.__init__ (rfc1155.py 519-522) *)
Definition h_octetstring (c : cls) (value : item) : H item := v <== py_copy value ;; new (PObj c [(Avalue, v)]).
(** IPAddress.__init__ (rfc1155.py 898-919) *)
Definition h_ipaddress (c : cls) (value : item) : H item :=
  match value with
  | IStr s =>
      let listform := py_split 46 s in
      if negb (zlen listform =? 4) then hlift (Err ValueError)
      else chars <== hlift (mapM (fun item => n <- py_int_of_str item ;; py_chr n) listform) ;; new (PObj c [(Avalue, IStr chars)])
  | IRef l => fun h =>
      match nth_error h l with
      | Some (PList x) => if negb (zlen x =? 4) then (h, Err ValueError) else (v <== py_copy value ;; new (PObj c [(Avalue, v)])) h
      | _ => new (PObj c [(Avalue, IStr [])]) h
      end
  | _ => new (PObj c [(Avalue, IStr [])])
  end.
(** ObjectID.__init__ (rfc1155.py 557-593).  value.value[:] copies the list. *)
Definition h_objectid (value : item) : H item :=
  match value with
  | IStr s => zs <== hlift (oid_of_str s) ;; v <== new (PList (map IInt zs)) ;; new (PObj CObjectID [(Avalue, v)])
  | INone => new (PObj CObjectID [(Avalue, INone)])
  | IInt z => v <== new (PList [IInt z]) ;; new (PObj CObjectID [(Avalue, v)])
  | IRef l => fun h =>
      match nth_error h l with
      | Some (PList x) => (v <== new (PList x) ;; new (PObj CObjectID [(Avalue, v)])) h
      | Some (PObj c _) =>
          if issubclass c CObjectID then
            (x <== rd (fun h => i <- attr_of h value Avalue ;; list_at h i) ;; v <== new (PList x) ;; new (PObj CObjectID [(Avalue, v)])) h
          else (h, Err TypeError)
      | None => (h, Err TypeError)
      end
  end.
(** Null() *)
Definition h_null : H item := new (PObj CNull []).
(** Sequence.__init__ (rfc1155.py 796-801): the list passed becomes the .value itself.  Simplification, as in [construct]: other arguments are a
    TypeError. *)
Definition h_sequence (c : cls) (value : item) : H item :=
  match value with
  | INone => v <== new (PList []) ;; new (PObj c [(Avalue, v)])
  | _ => _ <== rd (fun h => list_at h value) ;; new (PObj c [(Avalue, value)])
  end.
(** SequenceOf.__init__ (rfc1155.py 864-877): a new list, filled by append (879-884). *)
Fixpoint check_all (h : heap) (componentType : cls) (l : list item) : res unit :=
  match l with [] => Ok tt | x :: r => if negb (is_a h x componentType) then Err ValueError else check_all h componentType r end.
Definition h_sequenceof (c componentType : cls) (value : item) : H item :=
  items <== rd (fun h => t <- h_truthy h value ;; if (t : bool) then (l <- elems h value ;; _ <- check_all h componentType l ;; Ok l) else Ok []) ;;
  v <== new (PList items) ;; new (PObj c [(Avalue, v)]).
(** SequenceOf.append (rfc1155.py 879-884): the list is changed in place. *)
Definition set_cell (l : loc) (c : cell) : heap -> heap := fun h => firstn l h ++ c :: skipn (S l) h.
Definition h_append (o : item) (componentType : cls) (x : item) : H item := fun h =>
  if negb (is_a h x componentType) then (h, Err ValueError)
  else match attr_of h o Avalue with
       | Ok (IRef l) => match nth_error h l with Some (PList y) => (set_cell l (PList (y ++ [x])) h, Ok INone) | _ => (h, Err AttributeError) end
       | Ok _ => (h, Err AttributeError)
       | Err e => (h, Err e)
       end.
(** VarBind.__init__ (rfc1157.py 63-73) *)
Definition h_varbind (c : cls) (name value : item) : H item :=
  _ <== rd (fun h => t <- h_truthy h name ;; if (t : bool) && negb (is_a h name CObjectID) then Err ValueError else Ok tt) ;;
  _ <== rd (fun h => t <- h_truthy h value ;; if (t : bool) && negb (is_a h value CAsn1Object) then Err ValueError else Ok tt) ;;
  v <== new (PList [name; value]) ;; new (PObj c [(AobjectID, name); (AobjectValue, value); (Avalue, v)]).
(** rfc1157.VarBindList.__init__ (rfc1157.py 80-82), rfc1905.VarBindList.__init__ (rfc1905.py 52-55) *)
Definition h_varbindlist (value : item) : H item := h_sequenceof CVarBindList CVarBind value.
Definition h_varbindlist2 (value : item) : H item :=
  n <== rd (fun h => h_len h value) ;;
  if max_bindings <? n then hlift (Err ValueError) else h_sequenceof CVarBindList_v2 CVarBind value.
(** rfc1157.PDU.__init__ (rfc1157.py 138-151) *)
Definition h_pdu1 (c : cls) (requestID errorStatus errorIndex varBindList : item) : H item :=
  r <== h_integer CInteger requestID ;; e <== h_integer CErrorStatus errorStatus ;; i <== h_integer CInteger errorIndex ;;
  v <== h_varbindlist varBindList ;; l <== new (PList [r; e; i; v]) ;;
  new (PObj c [(ArequestID, r); (AerrorStatus, e); (AerrorIndex, i); (AvarBindList, v); (Avalue, l)]).
Definition not_above (v : item) : res unit :=
  match v with IInt z => if max_bindings <? z then Err ValueError else Ok tt | _ => Err TypeError end.
(** rfc1905.PDU.__init__ (rfc1905.py 105-121), which first runs rfc1157.PDU.__init__ with its default arguments *)
Definition h_pdu2 (c : cls) (requestID errorStatus errorIndex varBindList : item) : H item :=
  _ <== h_pdu1 c (IInt 0) (IInt 0) (IInt 0) default_pdu ;;
  _ <== hlift (not_above errorIndex) ;;
  r <== h_integer CInteger32 requestID ;; e <== h_integer CErrorStatus_v2 errorStatus ;; i <== h_integer CInteger errorIndex ;;
  v <== h_varbindlist2 varBindList ;; l <== new (PList [r; e; i; v]) ;;
  new (PObj c [(ArequestID, r); (AerrorStatus, e); (AerrorIndex, i); (AvarBindList, v); (Avalue, l)]).
Definition h_pdu (c : cls) : item -> item -> item -> item -> H item := if issubclass c CPDU_v2 then h_pdu2 c else h_pdu1 c.
Definition default_of (c : cls) : item := if issubclass c CPDU_v2 then default_pdu2 else default_pdu.
(** rfc1905.BulkPDU.__init__ (rfc1905.py 144-162) *)
Definition h_bulk (c : cls) (requestID nonRepeaters maxRepetitions varBindList : item) : H item :=
  _ <== hlift (not_above nonRepeaters) ;; _ <== hlift (not_above maxRepetitions) ;;
  r <== h_integer CInteger32 requestID ;; n <== h_integer CInteger nonRepeaters ;; m <== h_integer CInteger maxRepetitions ;;
  v <== h_varbindlist2 varBindList ;; l <== new (PList [r; n; m; v]) ;;
  new (PObj c [(ArequestID, r); (AnonRepeaters, n); (AmaxRepetitions, m); (AvarBindList, v); (Avalue, l)]).
(** TrapPDU.__init__ (rfc1157.py 233-250): the arguments themselves *)
Definition h_trappdu (e a g s t v : item) : H item :=
  l <== new (PList [e; a; g; s; t; v]) ;;
  new (PObj CTrapPDU [(Aenterprise, e); (AagentAddr, a); (AgenericTrap, g); (AspecificTrap, s); (Atimestamp, t); (AvarBindList, v); (Avalue, l)]).
(** Message.__init__ (rfc1157.py 91-95) *)
Definition h_message (c : cls) (version : Z) (community data : item) : H item :=
  l <== new (PList []) ;; v <== h_integer CInteger (IInt version) ;; com <== h_octetstring COctetString community ;;
  new (PObj c [(Avalue, l); (Aversion, v); (Acommunity, com); (Adata, data)]).

(** ** The manager *)

(** An entry of the dict [callbacks]: the hash stored with the key, the key (an int for v1 and v2; the Integer object for snmpManager),
    the callback. *)
Record entry := mkEntry { e_hash : Z; e_key : item; e_cb : cbval }.
(** The number a key stands for now: int(k) for v1 and v2 (v1.py 115, 192, 195), Integer.__hash__ and __eq__ for snmpManager (rfc1155.py
    331-339, 354-358; snmpmanager.py 211, 288, 291, 304, 307).  Other objects are not hashable; a str or None is not found. *)
Definition key_num (f : flavour) (h : heap) (k : item) : res Z :=
  match k with
  | IInt z => Ok z
  | INone => match f with FSM => Err KeyError | _ => Err TypeError end
  | IStr s => match f with FSM => Err KeyError | _ => py_int_of_str s end
  | IRef _ => if is_a h k CInteger then
                v <- attr_of h k Avalue ;;
                match v, f with
                | IInt z, _ => Ok z
                | IStr s, FV1 | IStr s, FV2 => py_int_of_str s
                | _, _ => Err TypeError
                end
              else Err TypeError
  end.
(** An entry is found under [n] when both the stored hash and the key as it is now agree with [n].  Simplification: CPython also finds an
    entry whose key is the very object looked up, if it happens to probe its slot. *)
Definition matches (f : flavour) (h : heap) (n : Z) (e : entry) : bool :=
  (e_hash e =? n) && match key_num f h (e_key e) with Ok z => z =? n | Err _ => false end.
Fixpoint e_get (f : flavour) (h : heap) (d : list entry) (n : Z) : option cbval :=
  match d with [] => None | e :: r => if matches f h n e then Some (e_cb e) else e_get f h r n end.
Fixpoint e_set (f : flavour) (h : heap) (d : list entry) (n : Z) (k : item) (cb : cbval) : list entry :=
  match d with
  | [] => [mkEntry n k cb]
  | e :: r => if matches f h n e then mkEntry (e_hash e) (e_key e) cb :: r else e :: e_set f h r n k cb
  end.
Fixpoint e_del (f : flavour) (h : heap) (d : list entry) (n : Z) : list entry :=
  match d with [] => [] | e :: r => if matches f h n e then r else e :: e_del f h r n end.
(** The dict as the value model has it. *)
Definition e_abs (f : flavour) (h : heap) (d : list entry) : list (Z * cbval) :=
  map (fun e => (e_hash e, e_cb e)) (filter (fun e => matches f h (e_hash e) e) d).

Inductive gevent :=
| GQueued (m : item) (dst : address)           (* a message object was put on the outbound queue *)
| GReturned (r : res item)                     (* a method or constructor returned *)
| GSent (m : item) (r : res str) (dst : address) (* run() took m from the queue; what encode() gave *)
| GInvoked (cb : nat) (m : item)               (* a callback was called with message m *)
| GDeleted (id : Z)                            (* del self.callbacks[id] *)
| GReceived (r : res unit).                    (* receiveData returned or raised *)
Inductive gframe := InResponse (m : item) | InTrap (m : item).
Record hstate := mkH {
  hp : heap; known : list loc; h_next : Z; h_out : list (item * address); h_cbs : list entry; h_stack : list gframe; h_log : list gevent }.
Definition h_init : hstate := mkH heap0 [] 0 [] [] [] [].

(** Methods: they change the heap and the manager's part of the state. *)
Definition G (A : Type) := hstate -> hstate * res A.
Definition gret {A} (a : A) : G A := fun s => (s, Ok a).
Definition gerr {A} (e : exn) : G A := fun s => (s, Err e).
Definition gbind {A B} (x : G A) (f : A -> G B) : G B :=
  fun s => match x s with (s', Ok a) => f a s' | (s', Err e) => (s', Err e) end.
Notation "x <-- r ;; k" := (gbind r (fun x => k)) (at level 61, r at next level, right associativity).
Definition on_heap {A} (x : H A) : G A := fun s =>
  let '(h, r) := x (hp s) in (mkH h (known s) (h_next s) (h_out s) (h_cbs s) (h_stack s) (h_log s), r).
(** assignRequestID (v1.py 47-52, snmpmanager.py 63-68) *)
Definition g_assign : G item := fun s =>
  (mkH (hp s) (known s) (h_next s + 1) (h_out s) (h_cbs s) (h_stack s) (h_log s), Ok (IInt (h_next s))).
Definition g_put (m : item) (dst : address) : G unit := fun s =>
  (mkH (hp s) (known s) (h_next s) (h_out s ++ [(m, dst)]) (h_cbs s) (h_stack s) (h_log s ++ [GQueued m dst]), Ok tt).
(** self.callbacks[int(msg.data.requestID)] = callback (v1.py 115, v2.py 93), self.callbacks[msg.data.requestID] = callback
    (snmpmanager.py 211) *)
Definition g_register (f : flavour) (k : item) (cb : cbval) : G unit := fun s =>
  match key_num f (hp s) k with
  | Err e => (s, Err e)
  | Ok n => (mkH (hp s) (known s) (h_next s) (h_out s)
                 (e_set f (hp s) (h_cbs s) n (match f with FSM => k | _ => IInt n end) cb) (h_stack s) (h_log s), Ok tt)
  end.
(** v1.py 54-62, v2.py 26-34, snmpmanager.py 70-101 *)
Definition g_pdu (c : cls) (vbl : item) : G item := id <-- g_assign ;; on_heap (h_pdu c id (IInt 0) (IInt 0) vbl).
Definition g_pdu_version (c1 c2 : cls) (vbl : item) (version : Z) : G item :=
  id <-- g_assign ;;
  if version =? 1 then on_heap (h_pdu c1 id (IInt 0) (IInt 0) vbl)
  else if version =? 2 then on_heap (h_pdu c2 id (IInt 0) (IInt 0) vbl) else gerr UnboundLocalError.
Definition g_message1 (community pdu : item) : G item := on_heap (h_message CMessage 0 community pdu).
Definition g_message2 (community pdu : item) : G item := on_heap (h_message CMessage_v2 1 community pdu).
(** VarBind(ObjectID(oid), Null()) *)
Definition h_null_binding (c : cls) (oid : item) : H item := o <== h_objectid oid ;; n <== h_null ;; h_varbind c o n.
(** VarBindList([vb]) *)
Definition h_list_of (two : bool) (vbs : list item) : H item := l <== new (PList vbs) ;; if two then h_varbindlist2 l else h_varbindlist l.
(** createGetRequestMessage: v1.py 64-72, v2.py 36-50, snmpmanager.py 103-124 *)
Definition g_create_get (f : flavour) (oid community : item) (version : Z) : G item :=
  match f with
  | FV1 => vbl <-- on_heap (vb <== h_null_binding CVarBind oid ;; h_list_of false [vb]) ;; pdu <-- g_pdu CGet vbl ;; g_message1 community pdu
  | FV2 => vbl <-- on_heap (oids <== rd (fun h => elems h oid) ;; vbs <== hmapM (h_null_binding CVarBind) oids ;; h_list_of true vbs) ;;
           pdu <-- g_pdu CGet_v2 vbl ;; g_message2 community pdu
  | FSM =>
      if version =? 1 then
        vbl <-- on_heap (vb <== h_null_binding CVarBind oid ;; h_list_of false [vb]) ;;
        pdu <-- g_pdu_version CGet CGet_v2 vbl 1 ;; g_message1 community pdu
      else if version =? 2 then
        vbl <-- on_heap (vb <== h_null_binding CVarBind_v2 oid ;; h_list_of true [vb]) ;;
        pdu <-- g_pdu_version CGet CGet_v2 vbl 2 ;; g_message2 community pdu
      else gerr ValueError
  end.
(** createGetNextRequestMessage: v1.py 74-79, v2.py 52-57, snmpmanager.py 126-136 *)
Definition g_create_getnext (f : flavour) (vbl community : item) (version : Z) : G item :=
  match f with
  | FV1 => pdu <-- g_pdu CGetNext vbl ;; g_message1 community pdu
  | FV2 => gerr AttributeError
  | FSM => pdu <-- g_pdu_version CGetNext CGetNext_v2 vbl version ;;
           if version =? 1 then g_message1 community pdu else g_message2 community pdu
  end.
(** tagDecodeDict[valtype](value) *)
Definition h_construct (c : cls) (value : item) : H item :=
  match c with
  | CInteger | CInteger32 | CCounter | CCounter32 | CGuage | CGuage32 | CTimeTicks | CCounter64 => h_integer c value
  | COctetString | COpaque => h_octetstring c value
  | CObjectID => h_objectid value
  | CSequence => h_sequence c value
  | CIPAddress => h_ipaddress c value
  | CGet | CGetNext | CResponse | CSet | CResponse_v2 | CInform | CTrapV2 | CReport => h_pdu c value (IInt 0) (IInt 0) (default_of c)
  | CGetBulk => h_bulk c value (IInt 0) (IInt 0) default_bulk
  | CTrapPDU => h_trappdu value INone INone INone INone INone
  | _ => hlift (Err TypeError)
  end.
Definition h_typed (valtype : Z) (value : item) : H item :=
  match reg_get reg1905 valtype with None => hlift (Err KeyError) | Some c => h_construct c value end.
(** snmpManager.createSetRequestMessage (snmpmanager.py 138-159) *)
Definition g_create_set (oid : item) (valtype : Z) (value community : item) (version : Z) : G item :=
  if version =? 1 then
    vbl <-- on_heap (o <== h_objectid oid ;; v <== h_typed valtype value ;; vb <== h_varbind CVarBind o v ;; h_list_of false [vb]) ;;
    pdu <-- g_pdu_version CSet CSet_v2 vbl 1 ;; g_message1 community pdu
  else if version =? 2 then
    vbl <-- on_heap (o <== h_objectid oid ;; v <== h_typed valtype value ;; vb <== h_varbind CVarBind_v2 o v ;; h_list_of true [vb]) ;;
    pdu <-- g_pdu_version CSet CSet_v2 vbl 1 ;; g_message2 community pdu
  else gerr ValueError.
(** The end of snmpGet, snmpGetNext, snmpSet: v1.py 111-116, 126-131, 144-149; v2.py 89-94; snmpmanager.py 207-213, 223-228, 240-245.  What is
    returned is the object msg.data.requestID itself. *)
Definition g_queue (f : flavour) (m : item) (dst : address) (cb : cbval) : G item :=
  _ <-- g_put m dst ;;
  r <-- on_heap (rd (fun h => d <- attr_of h m Adata ;; attr_of h d ArequestID)) ;;
  _ <-- g_register f r cb ;; gret r.

(** What user code can call. *)
Inductive hcall :=
| HGet (oid : item) (dst : address) (cb : cbval) (community : item) (version : Z)
| HGetNext (vbl : item) (dst : address) (cb : cbval) (community : item) (version : Z)
| HSetBindings (vbl : item) (dst : address) (cb : cbval) (community : item)
| HSetTyped (oid : item) (valtype : Z) (value : item) (dst : address) (cb : cbval) (community : item) (version : Z)
| HTrap (dst : address) (pdu community : item) (version : Z)
| HNewPDU (c : cls) (requestID : item) (vbl : option item)      (* Get(5), GetNext(5, varBindList=l), ... *)
| HNewVarBindList (two : bool) (value : option item)
| HNewVarBind (c : cls) (name value : item)
| HNewObjectID (value : item)
| HNewTrapPDU (e a g s t v : item)
| HAppend (vbl x : item).                                        (* vbl.append(x) *)
Definition opt_item (d : item) (o : option item) : item := match o with Some i => i | None => d end.
(** v1.py 103-156, v2.py 80-134, snmpmanager.py 199-252 *)
Definition g_call (f : flavour) (a : hcall) : G item :=
  match a with
  | HGet oid dst cb com ver => m <-- g_create_get f oid com ver ;; g_queue f m dst cb
  | HGetNext vbl dst cb com ver => m <-- g_create_getnext f vbl com ver ;; g_queue f m dst cb
  | HSetBindings vbl dst cb com =>
      match f with
      | FV1 => pdu <-- g_pdu CGetNext vbl ;; m <-- g_message1 com pdu ;; g_queue f m dst cb
      | FV2 => _ <-- g_assign ;; gerr AttributeError
      | FSM => gerr TypeError
      end
  | HSetTyped oid ty v dst cb com ver =>
      match f with FSM => m <-- g_create_set oid ty v com ver ;; g_queue f m dst cb | _ => gerr TypeError end
  | HTrap dst pdu com ver =>
      match f with
      | FV1 => m <-- g_message1 com pdu ;; _ <-- g_put m dst ;; gret INone
      | FV2 => m <-- g_message2 com pdu ;; _ <-- g_put m dst ;; gret INone
      | FSM => if (ver =? 1) || (ver =? 2) then gerr AttributeError else _ <-- g_put INone dst ;; gret INone
      end
  | HNewPDU c id vbl => on_heap (if issubclass c CBulkPDU then h_bulk c id (IInt 0) (IInt 0) (opt_item default_bulk vbl)
                                 else h_pdu c id (IInt 0) (IInt 0) (opt_item (default_of c) vbl))
  | HNewVarBindList two value => on_heap (if two then h_varbindlist2 (opt_item default_vbl2 value) else h_varbindlist (opt_item default_vbl value))
  | HNewVarBind c name value => on_heap (h_varbind c name value)
  | HNewObjectID value => on_heap (h_objectid value)
  | HNewTrapPDU e a g s t v => on_heap (h_trappdu e a g s t v)
  | HAppend vbl x => on_heap (h_append vbl CVarBind x)
  end.
Definition call_items (a : hcall) : list item :=
  match a with
  | HGet oid _ _ com _ => [oid; com]
  | HGetNext vbl _ _ com _ => [vbl; com]
  | HSetBindings vbl _ _ com => [vbl; com]
  | HSetTyped oid _ v _ _ com _ => [oid; v; com]
  | HTrap _ pdu com _ => [pdu; com]
  | HNewPDU _ id vbl => id :: match vbl with Some v => [v] | None => [] end
  | HNewVarBindList _ v => match v with Some v => [v] | None => [] end
  | HNewVarBind _ n v => [n; v]
  | HNewObjectID v => [v]
  | HNewTrapPDU e a g s t v => [e; a; g; s; t; v]
  | HAppend v x => [v; x]
  end.

(** ** Received messages *)

(** decode() makes all the objects of what it returns anew, and no two parts of it are the same object; [h_make] puts such a tree on the heap.
    The named attributes are those the constructors assign. *)
Definition attr_names (c : cls) : list attr :=
  if issubclass c CPDU then [ArequestID; AerrorStatus; AerrorIndex; AvarBindList]
  else if issubclass c CBulkPDU then [ArequestID; AnonRepeaters; AmaxRepetitions; AvarBindList]
  else if issubclass c CTrapPDU then [Aenterprise; AagentAddr; AgenericTrap; AspecificTrap; Atimestamp; AvarBindList]
  else if issubclass c CVarBind then [AobjectID; AobjectValue]
  else [].
Fixpoint h_make (v : val) : H item :=
  match v with
  | VNone => hret INone
  | VPyInt z => hret (IInt z)
  | VPyStr s => hret (IStr s)
  | VPyList l => is <== (fix go (l : list val) : H (list item) :=
                           match l with [] => hret [] | x :: r => y <== h_make x ;; ys <== go r ;; hret (y :: ys) end) l ;;
                 new (PList is)
  | VInt c z => new (PObj c [(Avalue, IInt z)])
  | VOct c v => i <== h_make v ;; new (PObj c [(Avalue, i)])
  | VOid None => new (PObj CObjectID [(Avalue, INone)])
  | VOid (Some l) => v <== new (PList (map IInt l)) ;; new (PObj CObjectID [(Avalue, v)])
  | VNull c => new (PObj c [])
  | VSeq c l => is <== (fix go (l : list val) : H (list item) :=
                          match l with [] => hret [] | x :: r => y <== h_make x ;; ys <== go r ;; hret (y :: ys) end) l ;;
                v <== new (PList is) ;; new (PObj c (combine (attr_names c) is ++ [(Avalue, v)]))
  end.
(** Message().decode(data) (rfc1157.py 110-125) *)
Definition h_make_message (m : message) : H item :=
  l <== new (PList []) ;; v <== h_make (m_version m) ;; c <== h_make (m_community m) ;; d <== h_make (m_data m) ;;
  new (PObj (m_cls m) [(Avalue, l); (Aversion, v); (Acommunity, c); (Adata, d)]).

(** ** What happens *)

Inductive glabel :=
| UNew (c : cell)                       (* user code makes a list or an object *)
| URead (l : loc)                       (* user code looks at an object it knows *)
| UWrite (l : loc) (c : cell)           (* user code changes an object it knows *)
| UCall (a : hcall)
| LSend (fuel : nat)                    (* run(): request = self.outbound.get(0); request[0].encode() *)
| LReceive (depth : nat) (d : data)     (* receiveData *)
| UReturn                               (* the callback returns *)
| URaise (e : exn).
Definition item_refs (i : item) : list loc := match i with IRef l => [l] | _ => [] end.
Definition cell_items (c : cell) : list item := match c with PList l => l | PObj _ d => map snd d end.
Definition refs (c : cell) : list loc := flat_map item_refs (cell_items c).
Definition knows (s : hstate) (l : list loc) : bool := forallb (fun x => existsb (Nat.eqb x) (known s)) l.
Definition g_say (e : list gevent) (s : hstate) : hstate := mkH (hp s) (known s) (h_next s) (h_out s) (h_cbs s) (h_stack s) (h_log s ++ e).
Definition learn (l : list loc) (s : hstate) : hstate := mkH (hp s) (l ++ known s) (h_next s) (h_out s) (h_cbs s) (h_stack s) (h_log s).
Definition with_heap (h : heap) (s : hstate) : hstate := mkH h (known s) (h_next s) (h_out s) (h_cbs s) (h_stack s) (h_log s).
Definition with_stack (k : list gframe) (s : hstate) : hstate := mkH (hp s) (known s) (h_next s) (h_out s) (h_cbs s) k (h_log s).
Definition with_cbs (d : list entry) (s : hstate) : hstate := mkH (hp s) (known s) (h_next s) (h_out s) d (h_stack s) (h_log s).

(** request[0].encode(): Message.encodeContents (rfc1157.py 103-108) first rebuilds the .value of the message *)
Definition set_attr (a : attr) (i : item) (d : list (attr * item)) : list (attr * item) := (a, i) :: filter (fun p => negb (attr_eqb (fst p) a)) d.
Definition h_encode_message (fuel : nat) (m : item) : H str :=
  match m with
  | IRef l => fun h =>
      match nth_error h l with
      | Some (PObj c d) =>
          match attr_of h m Aversion, attr_of h m Acommunity, attr_of h m Adata with
          | Ok v, Ok com, Ok dat => let h' := set_cell l (PObj c (set_attr Avalue (IRef (length h)) d)) (h ++ [PList [v; com; dat]]) in (h', h_encode fuel h' m)
          | Err e, _, _ | _, Err e, _ | _, _, Err e => (h, Err e)
          end
      | _ => (h, Err AttributeError)
      end
  | _ => hlift (Err AttributeError)
  end.

(** receiveData and the handle methods around the callback: see [receiveData] and [after_response] in Manager.v *)
Definition g_receive (sys : system) (depth : nat) (d : data) (s : hstate) : hstate :=
  match Manager.receiveData sys (mkMgr (h_next s) [] (e_abs (flav sys) (hp s) (h_cbs s))) depth d with
  | (Done r, _) => g_say [GReceived r] s
  | (InvokeResponse _ cb, Some msg) =>
      match h_make_message msg (hp s) with
      | (h, Ok m) => g_say [GInvoked cb m] (with_stack (InResponse m :: h_stack s) (learn (item_refs m) (with_heap h s)))
      | (_, Err e) => s     (* not reached *)
      end
  | (InvokeTrap cb, Some msg) =>
      match h_make_message msg (hp s) with
      | (h, Ok m) => g_say [GInvoked cb m] (with_stack (InTrap m :: h_stack s) (learn (item_refs m) (with_heap h s)))
      | (_, Err e) => s
      end
  | (_, None) => s          (* not reached *)
  end.
(** del self.callbacks[int(msg.data.requestID)]: v1.py 195, v2.py 176, snmpmanager.py 291, 307; the message as the callback left it *)
Definition g_return (f : flavour) (m : item) (s : hstate) : hstate :=
  match (d <- attr_of (hp s) m Adata ;; r <- attr_of (hp s) d ArequestID ;; key_num f (hp s) r) with
  | Err e => g_say [GReceived (guard f (Err e))] s
  | Ok n => match e_get f (hp s) (h_cbs s) n with
            | None => g_say [GReceived (guard f (Err KeyError))] s
            | Some _ => g_say [GDeleted n; GReceived (Ok tt)] (with_cbs (e_del f (hp s) (h_cbs s) n) s)
            end
  end.

Definition gstep (sys : system) (s : hstate) (l : glabel) : option hstate :=
  match l with
  | UNew c => if knows s (refs c) then Some (learn [length (hp s)] (with_heap (hp s ++ [c]) s)) else None
  | URead x => if knows s [x] then match nth_error (hp s) x with Some c => Some (learn (refs c) s) | None => None end else None
  | UWrite x c => if knows s (x :: refs c) then Some (with_heap (set_cell x c (hp s)) s) else None
  | UCall a =>
      if knows s (flat_map item_refs (call_items a)) then
        let '(s', r) := g_call (flav sys) a s in
        Some (g_say [GReturned r] (learn (match r with Ok i => item_refs i | Err _ => [] end) s'))
      else None
  | LSend fuel =>
      match h_out s with
      | [] => None
      | (m, dst) :: q =>
          let '(h, r) := h_encode_message fuel m (hp s) in
          Some (mkH h (known s) (h_next s) q (h_cbs s) (h_stack s) (h_log s ++ [GSent m r dst]))
      end
  | LReceive depth d => Some (g_receive sys depth d s)
  | UReturn =>
      match h_stack s with
      | InResponse m :: k => Some (g_return (flav sys) m (with_stack k s))
      | InTrap _ :: k => Some (g_say [GReceived (Ok tt)] (with_stack k s))
      | [] => None
      end
  | URaise e =>
      match h_stack s with
      | _ :: k => Some (g_say [GReceived (guard (flav sys) (Err e))] (with_stack k s))
      | [] => None
      end
  end.
Fixpoint gsteps (sys : system) (s : hstate) (tr : list glabel) : option hstate :=
  match tr with [] => Some s | l :: r => match gstep sys s l with Some s' => gsteps sys s' r | None => None end end.
Definition gexec (sys : system) (tr : list glabel) : option hstate := gsteps sys h_init tr.
