(** * str() of the library's objects, enum(), and the error tables shared by all ErrorStatus objects. *)
From Coq Require Import Ascii String ZArith List Bool.
From Verif Require Import PyBase Classes Values Codec.
Import ListNotations.
Open Scope Z_scope.

(** A literal. *)
Definition text (s : string) : str := map (fun a => Z.of_N (N_of_ascii a)) (list_ascii_of_string s).

(** A dict from codes to text. *)
Definition table := list (Z * str).
Fixpoint tbl_get (t : table) (k : Z) : option str :=
  match t with [] => None | (x, v) :: r => if x =? k then Some v else tbl_get r k end.
Fixpoint tbl_set (t : table) (k : Z) (v : str) : table :=
  match t with [] => [(k, v)] | (x, w) :: r => if x =? k then (x, v) :: r else (x, w) :: tbl_set r k v end.

(** ErrorStatus.errString as rfc1157.py 24-31 defines it: a class attribute, so one dict for the whole process. *)
Definition errString0 : table :=
  [ (0, text "No Error"); (1, text "Response message would have been too large");
    (2, text "There is no such variable name in this MIB"); (3, text "The value given has the wrong type");
    (4, text "Object is Read Only"); (5, text "An unknown error occurred") ]%string.
(** What constructing an rfc1905.ErrorStatus assigns (rfc1905.py 71-83). *)
Definition errString_v2 : table :=
  [ (6, text "Access is not permitted"); (7, text "Type is incorrect"); (8, text "Length is incorrect");
    (9, text "Encoding is incorrect"); (10, text "Value is incorrect"); (11, text "No creation");
    (12, text "Value is inconsistent"); (13, text "Resourse Unavailable"); (14, text "Commit Failed");
    (15, text "Undo Failed"); (16, text "Authorization Error"); (17, text "Not Writable");
    (18, text "Inconsistent Name") ]%string.
Definition extend (t : table) : table := fold_left (fun t kv => tbl_set t (fst kv) (snd kv)) errString_v2 t.
(** GenericTrap.genericTraps (rfc1157.py 201-209) *)
Definition genericTraps : table :=
  [ (0, text "coldStart"); (1, text "warmStart"); (2, text "linkDown"); (3, text "linkUp");
    (4, text "authenticationFailure"); (5, text "egpNeighborLoss"); (6, text "enterpriseSpecific") ]%string.

(** The attributes enum() uses are dicts.  Subscripting one looks the key up; calling one raises TypeError (dict has no __call__). *)
Inductive pyobj := ODict (entries : list ((Z + str) * (Z + str))) | OFunction (f : Z -> res str).
Definition py_call (o : pyobj) (arg : Z) : res str := match o with ODict _ => Err TypeError | OFunction f => f arg end.
(** ErrorStatus.errNum (rfc1157.py 33-40), before any rfc1905.ErrorStatus adds to it. *)
Definition errNum : pyobj :=
  ODict [ (inr (text "noError"), inl 0); (inr (text "tooBig"), inl 1); (inr (text "noSuchName"), inl 2); (inr (text "badValue"), inl 3);
          (inr (text "readOnly"), inl 4); (inr (text "genErr"), inl 5) ]%string.
(** ErrorStatus.enum (rfc1157.py 47-55): [return self.errNum(num)]. *)
Definition errorstatus_enum (value : Z) (num : option Z) : res str := py_call errNum (match num with Some n => n | None => value end).
(** GenericTrap.enum (rfc1157.py 216-224) *)
Definition generictrap_enum (value : Z) (num : option Z) : res str :=
  match tbl_get genericTraps (match num with Some n => n | None => value end) with Some s => Ok s | None => Err KeyError end.

(** str(v).  Integer 307-308, ErrorStatus rfc1157.py 42-45, GenericTrap rfc1157.py 211-214; OctetString rfc1155.py
    524-525 (returns .value, which must be a str); IPAddress 928-933; ObjectID 595-602; Null 769-770, rfc1905.py
    32-45; Sequence 803-813.  Plain ints, strs and None as Python prints them.  Simplification: plain Python lists, and an
    IPAddress whose value is a list, are not printed by the model (TypeError). *)
Definition null_str (c : cls) : str :=
  match c with
  | CNoSuchObject => text "No Such Object"
  | CNoSuchInstance => text "No Such Instance"
  | CEndOfMibView => text "EndOfMibView"
  | _ => text "<Null>"
  end%string.
Definition int_str (errs : table) (c : cls) (z : Z) : res str :=
  match c with
  | CErrorStatus | CErrorStatus_v2 =>
      match tbl_get errs z with Some s => Ok (py_str_of_int z ++ [58; 32] ++ s) | None => Err KeyError end
  | CGenericTrap =>
      match tbl_get genericTraps z with
      | Some s => Ok (text "GenericTrap: " ++ py_str_of_int z ++ [32; 40] ++ s ++ [41])
      | None => Err KeyError
      end
  | _ => Ok (py_str_of_int z)
  end%list.
(** ', '.join *)
Fixpoint commas (l : list str) : str :=
  match l with
  | [] => []
  | [x] => x
  | x :: r => x ++ [44; 32] ++ commas r
  end%list.
Fixpoint py_str (errs : table) (v : val) : res str :=
  match v with
  | VNone => Ok (text "None")
  | VPyInt z => Ok (py_str_of_int z)
  | VPyStr s => Ok s
  | VPyList _ => Err TypeError
  | VInt c z => int_str errs c z
  | VOct c (VPyStr s) => if issubclass c CIPAddress then Ok (ipaddress_str s) else Ok s
  | VOct _ _ => Err TypeError
  | VOid l => Ok (oid_str l)
  | VNull c => Ok (null_str c)
  | VSeq _ l =>
      parts <- (fix go (l : list val) : res (list str) :=
                  match l with
                  | [] => Ok []
                  | x :: r => a <- py_str errs x ;; b <- go r ;; Ok (a :: b)
                  end) l ;;
      Ok ([91] ++ commas parts ++ [93])
  end%list.
(** Message.__str__ (rfc1157.py 97-101) *)
Definition message_str (errs : table) (m : message) : res str :=
  a <- py_str errs (m_version m) ;; b <- py_str errs (m_community m) ;; c <- py_str errs (m_data m) ;;
  Ok ([91] ++ a ++ [44; 32] ++ b ++ [44; 32] ++ c ++ [93])%list.

(** ** The history of the process, as far as the shared table goes *)

(** Constructing rfc1905 PDUs constructs an rfc1905.ErrorStatus (rfc1905.py 105-112), unless an argument before it is
    refused. *)
Definition pdu_reaches_status (c : cls) (requestID errorStatus errorIndex : val) : bool :=
  issubclass c CPDU_v2 &&
  match gt_max_bindings errorIndex, integer_init CInteger32 requestID, integer_init CErrorStatus_v2 errorStatus with
  | Ok false, Ok _, Ok _ => true
  | _, _, _ => false
  end.
(** Decoding constructs tagDecodeDict[tag]() as soon as tag and length are read (rfc1155.py 166-172), and then decodes the
    contents.  This follows decode_one, decode_loop and decode of [Codec]. *)
Definition touch_one (reg : registry) (tdec : str -> bool) (stream : str) : bool :=
  match decodeTag stream with
  | Err _ => false
  | Ok (tag, s1) =>
      match decodeLength s1 with
      | Err _ => false
      | Ok (length, s2) =>
          match reg_get reg tag with
          | None => false
          | Some c => issubclass c CPDU_v2 ||
                      match decode_method c with
                      | Some DSequence | Some DPDU | Some DBulkPDU | Some DTrapPDU => tdec (ztake length s2)
                      | _ => false
                      end
          end
      end
  end.
Fixpoint touch_loop (reg : registry) (dec : str -> res (list val)) (tdec : str -> bool) (fuel : nat) (stream : str) : bool :=
  match stream with
  | [] => false
  | _ :: _ =>
      match fuel with
      | O => false
      | S f => touch_one reg tdec stream ||
               match decode_one reg dec stream with Ok (_, rest) => touch_loop reg dec tdec f rest | Err _ => false end
      end
  end.
Fixpoint touch (reg : registry) (depth : nat) (stream : str) : bool :=
  match depth with
  | O => false
  | S d => touch_loop reg (decode reg d) (touch reg d) (List.length stream) stream
  end.
Definition touch_data (reg : registry) (depth : nat) (d : data) : bool :=
  match d with DStr s => touch reg depth s | DBytes _ => false end.

(** Things a program does. *)
Inductive perr_op :=
| OErrorStatus (c : cls) (value : val)                       (* rfc1157.ErrorStatus(value), rfc1905.ErrorStatus(value) *)
| OPDU (c : cls) (requestID errorStatus errorIndex varBindList : val)
| ODecode (cfg : config) (depth : nat) (d : data)            (* any decode(), so also any datagram received *)
| OPrint (v : val).
Definition op_extends (o : perr_op) : bool :=
  match o with
  | OErrorStatus c v => match c, integer_init c v with CErrorStatus_v2, Ok _ => true | _, _ => false end
  | OPDU c r s i _ => pdu_reaches_status c r s i
  | ODecode cfg depth d => touch_data (reg_of cfg) depth d
  | OPrint _ => false
  end.
(** The table after a history. *)
Definition errs_after (h : list perr_op) : table :=
  fold_left (fun t o => if op_extends o then extend t else t) h errString0.
