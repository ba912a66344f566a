(** * Vocabulary for printing *)
From Coq Require Import Ascii String ZArith List Bool.
From Verif Require Import PyBase Classes Values Codec Text SpecNumber.
Import ListNotations.
Open Scope Z_scope.
Local Open Scope list_scope.

(** [x] is [v] or an object somewhere inside it. *)
Inductive inside : val -> val -> Prop :=
| inside_self v : inside v v
| inside_seq x y c l : In y l -> inside x y -> inside x (VSeq c l).
(** The error codes with a text: 0 to 5 at first, 0 to 18 once the SNMPv2 texts were added. *)
Definition has_text (v2_texts : Prop) (code : Z) : Prop := 0 <= code <= 5 \/ (v2_texts /\ 6 <= code <= 18).
(** The objects inside [v] that have a text for their code. *)
Definition all_codes_known (v2_texts : Prop) (v : val) : Prop :=
  forall c z, inside (VInt c z) v ->
    (c = CErrorStatus \/ c = CErrorStatus_v2 -> has_text v2_texts z) /\ (c = CGenericTrap -> 0 <= z <= 6).
(** Some operation of the history made an SNMPv2 ErrorStatus. *)
Definition v2_seen (h : list perr_op) : Prop := exists o, In o h /\ op_extends o = true.

(** The texts of the error codes of RFC 1157 (0-5) and RFC 1905 (6-18), as the library words them. *)
Definition code_text (code : Z) : option str :=
  match code with
  | 0 => Some (text "No Error")
  | 1 => Some (text "Response message would have been too large")
  | 2 => Some (text "There is no such variable name in this MIB")
  | 3 => Some (text "The value given has the wrong type")
  | 4 => Some (text "Object is Read Only")
  | 5 => Some (text "An unknown error occurred")
  | 6 => Some (text "Access is not permitted")
  | 7 => Some (text "Type is incorrect")
  | 8 => Some (text "Length is incorrect")
  | 9 => Some (text "Encoding is incorrect")
  | 10 => Some (text "Value is incorrect")
  | 11 => Some (text "No creation")
  | 12 => Some (text "Value is inconsistent")
  | 13 => Some (text "Resourse Unavailable")
  | 14 => Some (text "Commit Failed")
  | 15 => Some (text "Undo Failed")
  | 16 => Some (text "Authorization Error")
  | 17 => Some (text "Not Writable")
  | 18 => Some (text "Inconsistent Name")
  | _ => None
  end%string.
(** The names of the generic traps (RFC 1157). *)
Definition trap_name (g : Z) : option str :=
  match g with
  | 0 => Some (text "coldStart") | 1 => Some (text "warmStart") | 2 => Some (text "linkDown") | 3 => Some (text "linkUp")
  | 4 => Some (text "authenticationFailure") | 5 => Some (text "egpNeighborLoss") | 6 => Some (text "enterpriseSpecific")
  | _ => None
  end%string.
(** What str() gives for an object: numbers in decimal, an error status with its text, a generic trap with its name, strings as they are, addresses and
    identifiers dotted, the latter with a leading dot, nulls and markers by a text of their own, and a sequence of objects between brackets with commas. *)
Inductive prints (v2_texts : Prop) : val -> str -> Prop :=
| prints_none : prints v2_texts VNone (text "None"%string)
| prints_pyint z s : decimal z s -> prints v2_texts (VPyInt z) s
| prints_pystr s : prints v2_texts (VPyStr s) s
| prints_number c z s : ~ In c [CErrorStatus; CErrorStatus_v2; CGenericTrap] -> decimal z s -> prints v2_texts (VInt c z) s
| prints_status c z s t : In c [CErrorStatus; CErrorStatus_v2] -> decimal z s -> has_text v2_texts z -> code_text z = Some t ->
    prints v2_texts (VInt c z) (s ++ text ": "%string ++ t)
| prints_trap z s t : decimal z s -> trap_name z = Some t -> prints v2_texts (VInt CGenericTrap z) (text "GenericTrap: "%string ++ s ++ text " ("%string ++ t ++ text ")"%string)
| prints_string c s : ~ In c [CIPAddress; CNetworkAddress] -> prints v2_texts (VOct c (VPyStr s)) s
| prints_address c s parts : In c [CIPAddress; CNetworkAddress] -> Forall2 decimal s parts -> prints v2_texts (VOct c (VPyStr s)) (separated [46] parts)
| prints_oid l parts : Forall2 decimal l parts -> prints v2_texts (VOid (Some l)) (46 :: separated [46] parts)
| prints_no_oid : prints v2_texts (VOid None) []
| prints_null c : prints v2_texts (VNull c) (text match c with CNoSuchObject => "No Such Object" | CNoSuchInstance => "No Such Instance" | CEndOfMibView => "EndOfMibView" | _ => "<Null>" end%string)
| prints_seq c l parts : Forall2 (prints v2_texts) l parts -> prints v2_texts (VSeq c l) (text "["%string ++ separated (text ", "%string) parts ++ text "]"%string).
