(** * Vocabulary for the command-line programs: what goes on outside, and what they should print. *)
From Coq Require Import Ascii String ZArith List Bool.
From Verif Require Import PyBase Classes Values Codec Manager Text Tools SpecSMI SpecTree SpecWire SpecMsg SpecManager SpecNumber SpecText SpecFront.
Import ListNotations.
Open Scope Z_scope.
Local Open Scope list_scope.

(** The outside events of an execution, in order. *)
Definition outsides (tr : list (option outside)) : list outside :=
  flat_map (fun o => match o with Some x => [x] | None => [] end) tr.
(** The process has ended or waits for the outside world. *)
Definition settled (s : pstate) : Prop := match doing_of s with Own _ => False | _ => True end.
(** From [s], with exactly these outside events, the process comes to [s'] and settles there. *)
Definition goes (p : program) (t : transport) (args : list str) (s : pstate) (ev : list outside) (s' : pstate) : Prop :=
  exists tr, outsides tr = ev /\ psteps p t args s tr = Some s' /\ settled s'.
(** The same from the beginning. *)
Definition runs (p : program) (t : transport) (b : res unit) (args : list str) (ev : list outside) (s : pstate) : Prop :=
  goes p t args (start p b args) ev s.
(** A state the process can be in. *)
Definition reachable (p : program) (t : transport) (args : list str) (s : pstate) : Prop :=
  exists b tr, prun p t b args tr = Some s.
(** What was handed to the socket so far. *)
Definition sent (s : pstate) : list (str * address) := sends (log (st_of s)).
(** The process has sent request [id], nothing is queued, no other request is waiting, and it now polls for the answer. *)
Definition awaiting (s : pstate) (id : Z) : Prop :=
  doing_of s = Running /\ stack (st_of s) = [FRun Polling] /\ outbound (man (st_of s)) = [] /\ nextRequestID (man (st_of s)) = id + 1 /\
  forall x cb, pending (man (st_of s)) x cb <-> x = id /\ cb = Cb 0.

(** How values are shown: numbers in decimal, strings as they are, addresses and identifiers dotted (identifiers with a leading
    dot), nulls and markers by a text of their own. *)
Definition shown (t : tree) : option str :=
  match t with
  | TInt _ z => Some (py_str_of_int z)
  | TOct KIpAddress s => Some (py_join 46 (map py_str_of_int s))
  | TOct _ s => Some s
  | TOid l => Some (46 :: py_join 46 (map py_str_of_int l))
  | TNull KNoSuchObject => Some (text "No Such Object")
  | TNull KNoSuchInstance => Some (text "No Such Instance")
  | TNull KEndOfMibView => Some (text "EndOfMibView")
  | TNull _ => Some (text "<Null>")
  | TSeq _ _ => None
  end%string.
(** The names under which the types are shown. *)
Definition type_name (t : tree) : str :=
  text match t with
       | TInt k _ => match k with KCounter32 => "Counter32" | KGauge32 => "Guage32" | KTimeTicks => "TimeTicks" | KCounter64 => "Counter64" | _ => "Integer32" end
       | TOct k _ => match k with KIpAddress => "IPAddress" | KOpaque => "Opaque" | _ => "OctetString" end
       | TOid _ => "ObjectID"
       | TNull k => match k with KNoSuchObject => "NoSuchObject" | KNoSuchInstance => "NoSuchInstance" | KEndOfMibView => "EndOfMibView" | _ => "Null" end
       | TSeq _ _ => ""
       end%string.
(** The lines printed for a variable binding: "name = type: value", snmpget.py and snmpset.py with the value twice, and for
    an OctetString, except in snmpset.py, its hexadecimal form. *)
Definition binding_lines (twice hex : bool) (name : list Z) (value : tree) (shown_value : str) : list str :=
  (((46 :: py_join 46 (map py_str_of_int name)) ++ text " = " ++ type_name value ++ text ": " ++
    (if twice then text "(" ++ shown_value ++ text ") " else []) ++ shown_value)
   :: match hex, value with true, TOct KOctetString s => [text "   hex: " ++ octetsToHex s] | _, _ => [] end)%list%string.
(** The text of an error code; none for 0. *)
Definition error_text (code : Z) : option str := if code =? 0 then None else code_text code.
Definition error_line (code : Z) (t : str) : str := (text "Error: " ++ py_str_of_int code ++ text ": " ++ t)%list%string.
(** A datagram that answers request [id]. *)
Record reply := mkReply { r_octets : str; r_depth : nat; r_source : address; r_strict : bool; r_version : Z; r_community : str;
                          r_status : Z; r_index : Z; r_bindings : list (list Z * tree) }.
Definition datagram (r : reply) : outside := Finds (Datagram (r_depth r) (r_octets r) (r_source r)).
Definition answers (id : Z) (r : reply) : Prop :=
  let pdu := request_tree KResponse id (r_status r) (r_index r) (r_bindings r) in
  wire (r_strict r) (message_tree (r_version r) (r_community r) pdu) (r_octets r) /\ readable Upto1905 pdu /\
  (S (height pdu) <= r_depth r)%nat /\ (r_version r = 0 \/ r_version r = 1).
(** The walk goes on after a binding with this value. *)
Definition goes_on (value : tree) : Prop := value <> TNull KNoSuchObject /\ value <> TNull KEndOfMibView.
(** Bindings that survive being sent back: no Counter64, no Opaque, no SNMPv2 marker, and only integers and identifiers the library writes
    correctly (C03, C11, C17); not too many. *)
Definition resendable (bs : list (list Z * tree)) : Prop :=
  Forall (fun b => oid_survives (fst b) /\ wf Upto1905 (snd b) /\ shown (snd b) <> None) bs /\ zlen bs <= 2 ^ 31 - 1.
(** The octets are the request: a message with version 1 (SNMPv2c) and the given community. *)
Definition is_request (k : kind) (com : str) (dst : address) (id : Z) (bs : list (list Z * tree)) (d : str * address) : Prop :=
  snd d = dst /\ written (message_tree 1 com (request_tree k id 0 0 bs)) (fst d).
(** The process has ended with this exception, these lines on the screen, and these datagrams sent. *)
Definition ended (s : pstate) (e : exn) (lines : list str) (datagrams : list (str * address)) : Prop :=
  doing_of s = Over e /\ printed s = lines /\ sent s = datagrams.
(** Without error, with a first binding whose value can be shown. *)
Definition good_reply (r : reply) (name : list Z) (value : tree) : Prop :=
  r_status r = 0 /\ (exists rest, r_bindings r = (name, value) :: rest) /\ shown value <> None.
Definition first_lines (twice hex : bool) (r : reply) : list str :=
  match r_bindings r with
  | (n, v) :: _ => match shown v with Some sv => binding_lines twice hex n v sv | None => [] end
  | [] => []
  end.
(** An agent answers the requests [id], [id + 1], ... of a walk with these. *)
Fixpoint good_walk (id : Z) (replies : list reply) : Prop :=
  match replies with
  | [] => True
  | r :: rest => answers id r /\ (exists n v, good_reply r n v /\ goes_on v) /\ resendable (r_bindings r) /\ good_walk (id + 1) rest
  end.
(** Its requests: for each answer a GetNext with the bindings of the answer. *)
Fixpoint follow_ups (com : str) (dst : address) (id : Z) (replies : list reply) (ds : list (str * address)) : Prop :=
  match replies, ds with
  | [], [] => True
  | r :: replies, d :: ds => is_request KGetNext com dst (id + 1) (r_bindings r) d /\ follow_ups com dst (id + 1) replies ds
  | _, _ => False
  end.
(** The outside events of asking a first question, and of answering and asking on. *)
Definition asked : list outside := [Finds Nothing; Answers (Ok tt)].
Definition exchange (r : reply) : list outside := [datagram r; Answers (Ok tt)].
(** <type> and <value> of snmpset.py, and the value they mean. *)
Inductive set_value : str -> str -> tree -> Prop :=
| set_value_i value z : int_text value z -> - 2 ^ 31 <= z <= 2 ^ 31 -> int_survives z -> set_value (text "i"%string) value (TInt KInteger z)
| set_value_s value : set_value (text "s"%string) value (TOct KOctetString value)
| set_value_o value n : names value n -> set_value (text "o"%string) value (TOid n)
| set_value_a value l : ip_text value l -> Forall (fun n => 0 <= n < 256) l -> set_value (text "a"%string) value (TOct KIpAddress l).
(** A main part or callback that prints nothing. *)
Fixpoint quiet (k : script) : Prop := match k with Say _ _ => False | Ask _ k => quiet k | Stop _ => True end.
(** traplistener.py waits for traps. *)
Definition listening (s : pstate) : Prop :=
  doing_of s = Running /\ stack (st_of s) = [FRun Polling] /\ outbound (man (st_of s)) = [] /\ callbacks (man (st_of s)) = [].
(** The lines for a trap: enterprise, agent address, number and name of the generic trap, specific trap and time stamp with
    commas between them; then for each binding its name and value. *)
Definition trap_line (ent agent : list Z) (generic : Z) (name : str) (specific ticks : Z) : str :=
  (46 :: dots ent) ++ text "," ++ dots agent ++ text "," ++ py_str_of_int generic ++ text "," ++ name ++ text "," ++ py_str_of_int specific ++ text "," ++ py_str_of_int ticks.
Definition trap_binding_line (b : list Z * tree) : str :=
  text "  " ++ (46 :: dots (fst b)) ++ text "," ++ match shown (snd b) with Some sv => sv | None => [] end.

(** The running process waits for this kind of event: run() polls, or looks for a message to send. *)
Definition fits (s : pstate) (o : outside) : Prop := match o with Finds _ => stack (st_of s) = [FRun Polling] | Answers _ => stack (st_of s) = [FRun Sending] end.
