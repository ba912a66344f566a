(** * Convenience methods of the managers and the bundled command-line tools: making traps, typeSetter,
    enterpriseOID, snmpset.py; and small methods of the value classes that nothing else needs. *)
From Coq Require Import Ascii String ZArith List Bool.
From Verif Require Import PyBase Classes Values Codec Manager Text.
Import ListNotations.
Open Scope Z_scope.
Local Open Scope list_scope.

(** ** Making traps *)

(** self.getsockname: neither the managers nor asynrole.Manager nor asyncore.dispatcher (3.11) have such an attribute. *)
Definition getsockname : res val := Err AttributeError.
(** The objects of a trap, built in this order: v1.py 95-99, v2.py 73-77, snmpmanager.py 181-185 and 189-194 (the classes
    are the same: rfc1905 re-exports ObjectID, NetworkAddress, Integer and TimeTicks of rfc1155).
    [uptime] is what getSysUptime (v1.py 236-253, snmpmanager.py 344-361) returns (any number here; modelled in Uptime.v). *)
Definition trap_rest (varbindlist ent agentAddr genericTrap specificTrap : val) (uptime : Z) : res val :=
  agent <- ipaddress_init CNetworkAddress agentAddr ;;
  gTrap <- integer_init CGenericTrap genericTrap ;;
  sTrap <- integer_init CInteger specificTrap ;;
  ts <- integer_init CTimeTicks (VPyInt uptime) ;;
  Ok (trappdu_init ent agent gTrap sTrap ts varbindlist).
(** v1.SNMP.createTrapPDU (v1.py 87-103, inherited by v2.SNMP) and v2.SNMP.createTrap (v2.py 65-80): [if not agentAddr].
    snmpManager.createTrapPDU (snmpmanager.py 170-197): [if agentAddr is None], before anything else; a version other than 1
    and 2 leaves pdu unassigned. *)
Definition createTrapPDU (f : flavour) (varbindlist : val) (version : Z) (enterprise agentAddr genericTrap specificTrap : val)
                         (uptime : Z) : res val :=
  match f with
  | FV1 | FV2 =>
      ent <- oid_init enterprise ;;
      agentAddr <- (if negb (truthy agentAddr) then getsockname else Ok agentAddr) ;;
      trap_rest varbindlist ent agentAddr genericTrap specificTrap uptime
  | FSM =>
      agentAddr <- match agentAddr with VNone => getsockname | a => Ok a end ;;
      if (version =? 1) || (version =? 2) then
        (ent <- oid_init enterprise ;; trap_rest varbindlist ent agentAddr genericTrap specificTrap uptime)
      else Err UnboundLocalError
  end.

(** ** Convenience *)

(** enterpriseOID (v1.py 210-214, snmpmanager.py 316-320) *)
Definition enterpriseOID (partialOID : str) : str := text ".1.3.6.1.2.1."%string ++ partialOID.

(** typeValDict (snmpmanager.py 24-34) *)
Definition typeValDict : list (str * Z) :=
  [ (text "i"%string, 0x02); (text "s"%string, 0x04); (text "o"%string, 0x06); (text "t"%string, 0x43); (text "a"%string, 0x40); (text "c"%string, 0x41); (text "C"%string, 0x46) ].
Definition str_eqb (a b : str) : bool := if list_eq_dec Z.eq_dec a b then true else false.
Fixpoint sdict_get {A} (d : list (str * A)) (k : str) : option A :=
  match d with [] => None | (x, v) :: r => if str_eqb x k then Some v else sdict_get r k end.
(** typeSetter (snmpmanager.py 361-368) *)
Definition typeSetter (typestring : str) : res Z :=
  match sdict_get typeValDict typestring with Some t => Ok t | None => Err KeyError end.

(** The main part of snmpset.py (lines 56-67): the arguments <server> <community> <oid> <type> <value> become a call of
    snmpManager.snmpSet with the default version 2. *)
Definition snmpset_call (cb : cbval) (server community oid type value : str) : res call :=
  typeval <- typeSetter type ;;
  v <- (if str_eqb type (text "i"%string) then (z <- py_int_of_str value ;; Ok (VPyInt z)) else Ok (VPyStr value)) ;;
  Ok (ASetTyped (VPyStr oid) typeval v (server, 161) cb (VPyStr community) 2).
(** ... and its effect on the manager. *)
Definition snmpset (cb : cbval) (server community oid type value : str) : M answer :=
  fun m => match snmpset_call cb server community oid type value with
           | Ok a => do_call FSM a m
           | Err e => (m, Err e)
           end.

(** ** Other methods *)

(** hash(v).  Integer.__hash__ (rfc1155.py 354-358) is the hash of the int; [h] is CPython's hash of ints.  A class that
    defines __eq__ and not __hash__ has __hash__ = None: Asn1Object (262) and all classes below it but the Integers, so hash
    raises TypeError.  Plain values are not modelled here ([None]). *)
Definition py_hash (h : Z -> Z) (v : val) : option (res Z) :=
  match v with
  | VInt _ z => Some (Ok (h z))
  | VOct _ _ | VOid _ | VNull _ | VSeq _ _ => Some (Err TypeError)
  | _ => None
  end.
(** OctetString.__hex__ (rfc1155.py 538-539): '%.2X' per character *)
Definition hex2_upper (n : Z) : str :=
  let d := map HEX_digit (digits_in_base 16 n) in
  if Nat.ltb (List.length d) 2 then 48 :: d else d.
Definition octetstring_hex (s : str) : str := flat_map hex2_upper s.
(** OctetString.__oct__ (rfc1155.py 541-542): '%3o' per character: padded with blanks to width 3 *)
Definition pad3 (d : str) : str := repeat 32 (3 - List.length d) ++ d.
Definition octetstring_oct (s : str) : str := flat_map (fun b => pad3 (map (Z.add 48) (digits_in_base 8 b))) s.
