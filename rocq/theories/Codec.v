(** * The BER encoder and decoder: rfc1155.py, and the PDU and Message layers of
    rfc1157.py / rfc1905.py. *)
From Coq Require Import ZArith List Bool.
From Verif Require Import PyBase Classes Values.
Import ListNotations.
Open Scope Z_scope.

(** ** Identifier and length octets *)

(** Asn1Object.encodeIdentifier (rfc1155.py 209-213): the loop for tag numbers of 31
    and above, [while integer != -1]; [fuel] bounds the number of iterations. *)
Fixpoint encodeIdentifier_loop (fuel : nat) (integer : Z) : res str :=
  if integer =? -1 then Ok []
  else match fuel with
       | O => Err OutOfFuel
       | S f => rest <- encodeIdentifier_loop f (Z.shiftr integer 8) ;;
                Ok (Z.land integer 0xFF :: rest)
       end.
(** Asn1Object.encodeIdentifier (rfc1155.py 189-217).  None < 0x1F is a TypeError. *)
Definition encodeIdentifier (fuel : nat) (tagclass tagformat : Z) (tagnumber : option Z) : res str :=
  match tagnumber with
  | None => Err TypeError
  | Some n =>
      if n <? 0x1F then (c <- py_chr (Z.lor (Z.lor tagclass tagformat) n) ;; Ok [c])
      else c <- py_chr (Z.lor (Z.lor tagclass tagformat) 0x1F) ;;
           rest <- encodeIdentifier_loop fuel n ;; Ok (c :: rest)
  end.
(** self.encodeIdentifier() on an instance of class [c].  No class of the library has a
    tag number of 31 or more, so the fuel is never used. *)
Definition class_identifier (c : cls) : res str :=
  encodeIdentifier 16 (tagClass c) (tagFormat c) (tagNumber c).

(** Asn1Object.encodeLength (rfc1155.py 239-245): the loop [while length > 0]; each
    iteration inserts one octet in front. Returns the octets and numOctets. *)
Fixpoint encodeLength_loop (fuel : nat) (length : Z) (resultlist : str) (numOctets : Z) : res (str * Z) :=
  if length >? 0 then
    match fuel with
    | O => Err OutOfFuel
    | S f => encodeLength_loop f (Z.shiftr length 8) (Z.land length 0xff :: resultlist) (numOctets + 1)
    end
  else Ok (resultlist, numOctets).
(** Asn1Object.encodeLength (rfc1155.py 219-255). *)
Definition encodeLength (length : Z) : res str :=
  if length <? 127 then Ok [Z.land length 0xff]
  else p <- encodeLength_loop (S (Z.to_nat (Z.log2 length))) length [] 0 ;;
       let '(resultlist, numOctets) := p in
       Ok (Z.land (Z.lor numOctets 0x80) 0xff :: resultlist).

(** Asn1Object.decodeTag (rfc1155.py 114-119): the loop over the following octets. *)
Fixpoint decodeTag_loop (tag : Z) (stream : str) : res (Z * str) :=
  match stream with
  | [] => Err IndexError
  | byte :: r =>
      let tag := Z.lor (Z.shiftl tag 7) (Z.land byte 0x7F) in
      if Z.land byte 0x80 =? 0 then Ok (tag, r) else decodeTag_loop tag r
  end.
(** Asn1Object.decodeTag (rfc1155.py 99-122). *)
Definition decodeTag (stream : str) : res (Z * str) :=
  match stream with
  | [] => Err IndexError
  | tag :: r => if Z.land tag 0x1F =? 0x1F then decodeTag_loop 0 r else Ok (tag, r)
  end.

(** Asn1Object.decodeLength (rfc1155.py 141-144): [for i in range(run)]. *)
Fixpoint decodeLength_loop (run : nat) (length : Z) (stream : str) : res (Z * str) :=
  match run with
  | O => Ok (length, stream)
  | S n => match stream with
           | [] => Err IndexError
           | b :: r => decodeLength_loop n (Z.lor (Z.shiftl length 8) b) r
           end
  end.
(** Asn1Object.decodeLength (rfc1155.py 126-146). *)
Definition decodeLength (stream : str) : res (Z * str) :=
  match stream with
  | [] => Err IndexError
  | length :: r =>
      if negb (Z.land length 0x80 =? 0)
      then decodeLength_loop (Z.to_nat (Z.land length 0x7F)) 0 r
      else Ok (length, r)
  end.

(** ** Integer contents *)

(** Integer.encodeContents (rfc1155.py 375-378 and 388-391): the two shift loops;
    [stop] is 0 for positive and -1 for negative numbers. *)
Fixpoint int_bytes_loop (stop : Z) (fuel : nat) (integer : Z) (result : str) : res str :=
  if integer =? stop then Ok result
  else match fuel with
       | O => Err OutOfFuel
       | S f => int_bytes_loop stop f (Z.shiftr integer 8) (Z.land integer 0xff :: result)
       end.
Definition int_fuel (v : Z) : nat := S (S (Z.to_nat (Z.log2 (Z.abs v)))).
(** Integer.encodeContents (rfc1155.py 360-399).  Line 393-395: for negative numbers
    whose top bit is clear a ZERO octet is inserted.  [result[0]] is never
    evaluated on an empty list (the loops run at least once). *)
Definition integer_encodeContents (integer : Z) : res str :=
  if integer =? 0 then Ok [0]
  else if integer =? -1 then Ok [255]
  else if integer >? 0 then
    result <- int_bytes_loop 0 (int_fuel integer) integer [] ;;
    match result with
    | [] => Err IndexError
    | b :: _ => if negb (Z.land b 0x80 =? 0) then Ok (0 :: result) else Ok result
    end
  else
    result <- int_bytes_loop (-1) (int_fuel integer) integer [] ;;
    match result with
    | [] => Err IndexError
    | b :: _ => if negb (Z.land b 0x80 =? 0x80) then Ok (0 :: result) else Ok result
    end.

(** Integer.decodeContents (rfc1155.py 418-421): loop of the negative branch. *)
Fixpoint dec_neg_loop (negbit value : Z) (input : str) : Z * Z :=
  match input with
  | [] => (negbit, value)
  | b :: r => dec_neg_loop (Z.shiftl negbit 8) (Z.lor (Z.shiftl value 8) b) r
  end.
(** rfc1155.py 427-428: loop of the positive branch. *)
Fixpoint dec_pos_loop (value : Z) (input : str) : Z :=
  match input with
  | [] => value
  | b :: r => dec_pos_loop (Z.lor (Z.shiftl value 8) b) r
  end.
(** Integer.decodeContents (rfc1155.py 401-434). *)
Definition integer_decodeContents (stream : str) : res Z :=
  match stream with
  | [] => Err IndexError
  | byte :: rest =>
      if Z.land byte 0x80 =? 0x80 then
        let '(negbit, value) := dec_neg_loop 0x80 (Z.land byte 0x7f) rest in
        Ok (value - negbit)
      else Ok (dec_pos_loop byte rest)
  end.
(** Integer.decodeTwosInteger1 (rfc1155.py 436-450): reduce over the octets with -1
    prepended for negative numbers. *)
Definition decodeTwosInteger1 (stream : str) : res Z :=
  match stream with
  | [] => Err IndexError
  | b0 :: _ =>
      let bytes := if negb (Z.land b0 0x80 =? 0) then (-1) :: stream else stream in
      Ok (fold_left (fun x y => Z.lor (Z.shiftl x 8) y) bytes 0)
  end.
(** Integer.decodeTwosInteger2 (rfc1155.py 452-478): same loops as decodeContents,
    indexing the stream character by character. *)
Definition decodeTwosInteger2 (stream : str) : res Z :=
  match stream with
  | [] => Err IndexError
  | byte :: rest =>
      if Z.land byte 0x80 =? 0x80 then
        let '(negbit, val) := dec_neg_loop 0x80 (Z.land byte 0x7f) rest in
        Ok (val - negbit)
      else Ok (dec_pos_loop byte rest)
  end.
(** Integer.decodeTwosInteger3 (rfc1155.py 480-503). *)
Definition decodeTwosInteger3 (stream : str) : res Z :=
  match stream with
  | [] => Err IndexError
  | b0 :: rest =>
      if negb (Z.land b0 0x80 =? 0) then
        let '(negbit, val) := dec_neg_loop 0x80 0 (Z.land b0 0x7f :: rest) in
        Ok (val - Z.shiftr negbit 8)
      else Ok (dec_pos_loop 0 stream)
  end.
(** Counter.decodeContents (rfc1155.py 977-991). *)
Definition counter_decodeContents (stream : str) : res Z :=
  v <- integer_decodeContents stream ;;
  if v <? 0 then Ok (v + 0x100000000) else Ok v.

(** ** ObjectID contents *)

(** ObjectID.encodeContents (rfc1155.py 684-688): octets inserted at [position] one by
    one, i.e. prepended to the octets of this subid. *)
Fixpoint subid_loop (fuel : nat) (subid : Z) (acc : str) : res str :=
  if subid >? 0 then
    match fuel with
    | O => Err OutOfFuel
    | S f => subid_loop f (Z.shiftr subid 7) (Z.lor 0x80 (Z.land subid 0x7f) :: acc)
    end
  else Ok acc.
(** ObjectID.encodeContents (rfc1155.py 677-690): one subid. *)
Definition encode_subid (subid : Z) : res str :=
  if subid <? 128 then Ok [Z.land subid 0x7f]
  else subid_loop (S (Z.to_nat (Z.log2 subid))) (Z.shiftr subid 7) [Z.land subid 0x7f].
(** ObjectID.encodeContents (rfc1155.py 663-692).  idlist.pop() on an exhausted list
    is an IndexError; None[:] is a TypeError. *)
Definition oid_encodeContents (value : option (list Z)) : res str :=
  match value with
  | None => Err TypeError
  | Some (a :: b :: rest) =>
      l <- mapM encode_subid ((a * 40 + b) :: rest) ;; Ok (concat l)
  | Some _ => Err IndexError
  end.

(** ObjectID.decodeContents (rfc1155.py 743-747): the inner loop, entered with the
    previous octet having its top bit set. *)
Fixpoint oid_group_loop (val : Z) (bytes : str) : res (Z * str) :=
  match bytes with
  | [] => Err IndexError
  | subid :: r =>
      let val := Z.lor (Z.shiftl val 7) (Z.land subid 0x7f) in
      if Z.land subid 0x80 =? 0x80 then oid_group_loop val r else Ok (val, r)
  end.
(** ObjectID.decodeContents (rfc1155.py 733-752): the outer loop.  Every iteration
    consumes at least one octet, so [length bytes] is enough fuel. *)
Fixpoint oid_loop (fuel : nat) (bytes : str) : res (list Z) :=
  match bytes with
  | [] => Ok []
  | subid :: r =>
      match fuel with
      | O => Err OutOfFuel
      | S f =>
          if Z.land subid 0x80 =? 0x80 then
            p <- oid_group_loop (Z.land subid 0x7f) r ;;
            let '(v, r') := p in
            rest <- oid_loop f r' ;; Ok (v :: rest)
          else rest <- oid_loop f r ;; Ok (subid :: rest)
      end
  end.
(** ObjectID.decodeContents (rfc1155.py 696-754).  int(b/40) is exact integer division
    for b < 128. *)
Definition oid_decodeContents (stream : str) : res (list Z) :=
  match stream with
  | [] => Err ValueError
  | b0 :: r =>
      if b0 <? 128 then
        rest <- oid_loop (length r) r ;; Ok (b0 / 40 :: b0 mod 40 :: rest)
      else Err NotImplementedError
  end.

(** Null.decodeContents (rfc1155.py 775-778) *)
Definition null_decodeContents (stream : str) : res unit :=
  match stream with [] => Ok tt | _ => Err ValueError end.

(** ** encode *)

(** Asn1Object.encode (rfc1155.py 82-95), given the contents octets. *)
Definition tlv (c : cls) (contents : str) : res str :=
  i <- class_identifier c ;;
  l <- encodeLength (zlen contents) ;;
  Ok (i ++ l ++ contents).

(** encode() on any value.  Asn1Object.encode dispatches to encodeContents: Integer
    (360-399), OctetString (527-530), ObjectID (663-692), Null (772-773), Sequence
    (827-840).  A str element of a Sequence is copied verbatim (line 835).  Values
    without an encode method raise AttributeError.  An OctetString whose value is not a
    str fails in len() or ''.join(): TypeError. *)
Fixpoint encode (v : val) : res str :=
  match v with
  | VNone | VPyInt _ | VPyList _ => Err AttributeError
  | VPyStr s => Ok s
  | VInt c z => contents <- integer_encodeContents z ;; tlv c contents
  | VOct c (VPyStr s) => tlv c s
  | VOct c _ => Err TypeError
  | VOid l => contents <- oid_encodeContents l ;; tlv CObjectID contents
  | VNull c => tlv c []
  | VSeq c l =>
      contents <- (fix go (l : list val) : res str :=
                     match l with
                     | [] => Ok []
                     | x :: r => a <- encode x ;; b <- go r ;; Ok (a ++ b)
                     end) l ;;
      tlv c contents
  end.
(** Sequence.encodeContents (rfc1155.py 827-840) *)
Fixpoint encode_list (l : list val) : res str :=
  match l with
  | [] => Ok []
  | x :: r => a <- encode x ;; b <- encode_list r ;; Ok (a ++ b)
  end.

(** ** decode *)

(** PDU.decodeContents (rfc1157.py 161-163): one VarBind per item of the fourth
    element, built from item[0] and item[1].  [c] is the VarBind class used. *)
Definition build_varbind (c : cls) (item : val) : res val :=
  n <- py_getitem item 0 ;; v <- py_getitem item 1 ;; varbind_init c n v.

(** PDU.decodeContents (rfc1157.py 153-165), after Sequence.decodeContents produced
    [objs].  myVarList is a rfc1157.VarBindList filled by append. *)
Definition pdu_of_objects (c : cls) (objs : list val) : res val :=
  match objs with
  | [o0; o1; o2; o3] =>
      items <- py_iter o3 ;;
      vbs <- mapM (build_varbind CVarBind) items ;;
      r <- py_int o0 ;; e <- py_int o1 ;; i <- py_int o2 ;;
      pdu_init c (VPyInt r) (VPyInt e) (VPyInt i) (VSeq CVarBindList vbs)
  | _ => Err PDUError
  end.
(** BulkPDU.decodeContents (rfc1905.py 164-176): myVarList is a plain list. *)
Definition bulkpdu_of_objects (c : cls) (objs : list val) : res val :=
  match objs with
  | [o0; o1; o2; o3] =>
      items <- py_iter o3 ;;
      vbs <- mapM (build_varbind CVarBind_v2) items ;;
      r <- py_int o0 ;; e <- py_int o1 ;; i <- py_int o2 ;;
      bulkpdu_init c (VPyInt r) (VPyInt e) (VPyInt i) (VPyList vbs)
  | _ => Err PDUError
  end.
(** TrapPDU.decodeContents (rfc1157.py 255-269) *)
Definition trappdu_of_objects (objs : list val) : res val :=
  match objs with
  | [o0; o1; o2; o3; o4; o5] =>
      items <- py_iter o5 ;;
      vbs <- mapM (build_varbind CVarBind) items ;;
      g <- py_int o2 ;; gt <- integer_init CGenericTrap (VPyInt g) ;;
      Ok (trappdu_init o0 o1 gt o3 o4 (VSeq CVarBindList vbs))
  | _ => Err PDUError
  end.

(** tagDecodeDict[tag]().decodeContents(objectData).  [dec] is the recursive decode()
    used by Sequence.decodeContents (rfc1155.py 842-850) and the PDU classes. *)
Definition decodeContents (dec : str -> res (list val)) (c : cls) (data : str) : res val :=
  match decode_method c with
  | Some DInteger => v <- integer_decodeContents data ;; Ok (VInt c v)
  | Some DCounter => v <- counter_decodeContents data ;; Ok (VInt c v)
  | Some DOctetString => Ok (VOct c (VPyStr data))
  | Some DIPAddress => Ok (VOct c (VPyStr data))
  | Some DObjectID => l <- oid_decodeContents data ;; Ok (VOid (Some l))
  | Some DNull => _ <- null_decodeContents data ;; Ok (VNull c)
  | Some DSequence => l <- dec data ;; Ok (VSeq c l)
  | Some DPDU => l <- dec data ;; pdu_of_objects c l
  | Some DBulkPDU => l <- dec data ;; bulkpdu_of_objects c l
  | Some DTrapPDU => l <- dec data ;; trappdu_of_objects l
  | None => Err AttributeError      (* Asn1Object itself; never in the table *)
  end.

(** One iteration of the loop of Asn1Object.decode (rfc1155.py 166-177): the object
    and the rest of the stream. *)
Definition decode_one (reg : registry) (dec : str -> res (list val)) (stream : str) : res (val * str) :=
  p <- decodeTag stream ;;
  let '(tag, s1) := p in
  q <- decodeLength s1 ;;
  let '(length, s2) := q in
  let objectData := ztake length s2 in
  let rest := zdrop length s2 in
  match reg_get reg tag with
  | None => Err ValueError
  | Some c => o <- decodeContents dec c objectData ;; Ok (o, rest)
  end.
(** The loop [while len(stream) > 0] (rfc1155.py 163-180).  Every iteration consumes
    at least two characters, so [length stream] is enough fuel. *)
Fixpoint decode_loop (reg : registry) (dec : str -> res (list val)) (fuel : nat) (stream : str) : res (list val) :=
  match stream with
  | [] => Ok []
  | _ :: _ =>
      match fuel with
      | O => Err OutOfFuel
      | S f => p <- decode_one reg dec stream ;;
               let '(o, rest) := p in
               os <- decode_loop reg dec f rest ;; Ok (o :: os)
      end
  end.
(** Asn1Object.decode (rfc1155.py 150-180) on a str.  [depth] is the number of nested
    decode() calls the interpreter still allows (each uses a few Python frames);
    when it is exhausted Python raises RecursionError. *)
Fixpoint decode (reg : registry) (depth : nat) (stream : str) : res (list val) :=
  match depth with
  | O => Err RecursionError
  | S d => decode_loop reg (decode reg d) (length stream) stream
  end.

(** What recvfrom or a caller hands over: text or bytes. *)
Inductive data := DStr (s : str) | DBytes (s : str).
(** The type test of Asn1Object.decode (rfc1155.py 160-161). *)
Definition decode_data (reg : registry) (depth : nat) (d : data) : res (list val) :=
  match d with DStr s => decode reg depth s | DBytes _ => Err TypeError end.

(** ** Messages *)

(** A Message object: its class, the three attributes and the inherited [.value] list,
    which stays [] until encodeContents is called (rfc1157.py 91-108). *)
Record message := mkMsg {
  m_cls : cls; m_version : val; m_community : val; m_data : val; m_value : list val }.

(** rfc1157.Message.__init__ (rfc1157.py 91-95); rfc1905.Message.__init__ (rfc1905.py
    60-61) only changes the default version. *)
Definition message_init (c : cls) (version community data : val) : res message :=
  v <- integer_init CInteger version ;;
  Ok (mkMsg c v (octetstring_init COctetString community) data []).
(** Message.encodeContents (rfc1157.py 103-108): rebuilds .value. *)
Definition message_set_value (m : message) : message :=
  mkMsg (m_cls m) (m_version m) (m_community m) (m_data m)
        [m_version m; m_community m; m_data m].
(** Message.encode(): the octets, and the object after the call (its .value was
    assigned). *)
Definition message_encode (m : message) : message * res str :=
  let m' := message_set_value m in
  (m', contents <- encode_list (m_value m') ;; tlv (m_cls m') contents).
(** Message.decode (rfc1157.py 110-125), called on Message() of class [c].  The error
    message of line 115 has no conversion specifier, so "%" raises TypeError. *)
Definition message_decode (reg : registry) (depth : nat) (c : cls) (d : data) : res message :=
  objectList <- decode_data reg depth d ;;
  match objectList with
  | [o] =>
      n <- py_len o ;;
      if negb (n =? 3) then Err MessageError
      else v0 <- py_getitem o 0 ;; v1 <- py_getitem o 1 ;; v2 <- py_getitem o 2 ;;
           Ok (mkMsg c v0 v1 v2 [])
  | _ => Err TypeError
  end.

(** ** Equality *)

(** The value comparison [self.value == other.value] and [a == b] on arbitrary values.
    Asn1Object.__eq__ (rfc1155.py 262-268), Integer.__eq__ (331-339).  Python calls the
    right operand's __eq__ first when its class is a proper subclass of the left
    operand's (reflected priority); for these classes that amounts to: two objects
    neither of which is an Integer are equal iff they have the same class and equal
    values.  An Integer on the left (or on the right of a plain Python value, or of
    a superclass instance - none but Integers) converts the other side with int().
    Python lists compare lengths first, then elements left to right up to the first
    difference. *)
Definition is_vint (v : val) : bool := match v with VInt _ _ => true | _ => false end.

Fixpoint py_eq (a b : val) {struct a} : res bool :=
  match a, b with
  (* Integer.__eq__ *)
  | VInt _ x, VInt _ y => Ok (x =? y)
  | VInt _ x, _ => y <- py_int b ;; Ok (x =? y)
  (* plain Python values on the left *)
  | VPyInt x, VPyInt y => Ok (x =? y)
  | VPyInt x, VInt _ y => Ok (y =? x)
  | VPyInt _, _ => Ok false
  | VPyStr s, VPyStr t => Ok (if list_eq_dec Z.eq_dec s t then true else false)
  | VPyStr s, VInt _ y => x <- py_int_of_str s ;; Ok (y =? x)
  | VPyStr _, _ => Ok false
  | VNone, VNone => Ok true
  | VNone, VInt _ _ => Err TypeError
  | VNone, _ => Ok false
  | VPyList l, VPyList m =>
      if negb (Nat.eqb (length l) (length m)) then Ok false
      else (fix go (l m : list val) : res bool :=
              match l, m with
              | x :: l', y :: m' => e <- py_eq x y ;; if (e : bool) then go l' m' else Ok false
              | _, _ => Ok true
              end) l m
  | VPyList _, VInt _ _ => Err TypeError
  | VPyList _, _ => Ok false
  (* Asn1Object.__eq__ *)
  | VOct c v, VOct d w => if cls_eqb c d then py_eq v w else Ok false
  | VOid l, VOid m =>
      Ok (match l, m with
          | Some x, Some y => if list_eq_dec Z.eq_dec x y then true else false
          | None, None => true
          | _, _ => false
          end)
  | VNull c, VNull d => Ok (cls_eqb c d)
  | VSeq c l, VSeq d m =>
      if cls_eqb c d then
        if negb (Nat.eqb (length l) (length m)) then Ok false
        else (fix go (l m : list val) : res bool :=
                match l, m with
                | x :: l', y :: m' => e <- py_eq x y ;; if (e : bool) then go l' m' else Ok false
                | _, _ => Ok true
                end) l m
      else Ok false
  | _, _ => Ok false
  end.
(** Asn1Object.__ne__ (rfc1155.py 274-278) *)
Definition py_ne (a b : val) : res bool := e <- py_eq a b ;; Ok (negb e).
(** Message equality: Asn1Object.__eq__ compares only .value. *)
Definition message_eq (a b : message) : res bool :=
  if cls_eqb (m_cls a) (m_cls b) then py_eq (VPyList (m_value a)) (VPyList (m_value b)) else Ok false.

(** ** util.py *)

(** "%.2x" % n *)
Definition hex2 (n : Z) : str :=
  let d := map hex_digit (digits_in_base 16 n) in
  if Nat.ltb (length d) 2 then 48 :: d else d.
(** util.octetsToHex (util.py 9-18) *)
Fixpoint octetsToHex (octets : str) : str :=
  match octets with [] => [] | b :: r => hex2 b ++ octetsToHex r end.
(** util.octetsToOct (util.py 20-29): oct() prints the prefix "0o"; "%.4s" keeps four
    characters. *)
Definition py_oct (n : Z) : str := 48 :: 111 :: map (Z.add 48) (digits_in_base 8 n).
Fixpoint octetsToOct (octets : str) : str :=
  match octets with [] => [] | b :: r => ztake 4 (py_oct b) ++ 44 :: octetsToOct r end.
