(** * The bundled command-line programs, as programs that use a manager: snmpget.py, snmpwalk.py, snmpset.py,
    snmpget-v1.py, snmpget-v2.py, traplistener.py, trapsender.py.

    A program is its main part and its callbacks.  What it does between two events of the outside world is
    determined; the outside world says what poll() finds and what sendto answers.  Simplifications: [args] is what
    getopt.getopt leaves of the command line (getopt itself and the exit status: CommandLine); print never fails; log
    output is not modelled. *)
From Coq Require Import Ascii String ZArith List Bool.
From Verif Require Import PyBase Classes Values Codec Manager Text Frontend.
Import ListNotations.
Open Scope Z_scope.

(** User code: it prints, calls methods of the manager (a method that raises ends it, by that exception), and ends. *)
Inductive script :=
| Say (line : str) (k : script)
| Ask (a : call) (k : script)
| Stop (r : res unit).
(** Evaluate an expression, go on with its value. *)
Definition eval {A} (r : res A) (k : A -> script) : script := match r with Ok a => k a | Err e => Stop (Err e) end.
Fixpoint say_all (lines : list str) (k : script) : script := match lines with [] => k | l :: r => Say l (say_all r k) end.

(** The interface argument of the constructor: an address tuple, or something else, which bind refuses with TypeError
    (role.py 33). *)
Inductive interface_arg := Tuple | NotTuple.
Record program := mkProgram {
  p_flavour : flavour; p_interface : interface_arg;
  p_queueEmpty : bool;                                  (* a queueEmpty callback was passed *)
  p_trapCallback : bool;                                (* a trap callback was passed *)
  p_main : list str -> script;                          (* the main part up to run() *)
  p_response : list str -> table -> message -> script;  (* the callback passed with requests; args is a global variable *)
  p_trap : table -> message -> script;
  p_done : script }.                                    (* queueEmpty *)
Definition cb_response : cbval := Cb 0.
Definition system_of (p : program) (t : transport) : system :=
  mkSys (p_flavour p) Upto1905 (if p_queueEmpty p then Some (Cb 1) else None) (if p_trapCallback p then Some (Cb 2) else None) t.

(** ** Running *)

(** Library attributes used by the programs: msg.data.errorStatus, .varBindList (rfc1157.py 146-149; rfc1905.py 111-114). *)
Definition pdu_attr (n : nat) (v : val) : res val :=
  match v with
  | VSeq c l => if issubclass c CPDU then match nth_error l n with Some x => Ok x | None => Err AttributeError end else Err AttributeError
  | _ => Err AttributeError
  end.
Definition errorStatus (v : val) : res val := pdu_attr 1 v.
Definition varBindList (v : val) : res val := pdu_attr 3 v.
(** varbind.objectID, varbind.objectValue (rfc1157.py 71-72) *)
Definition varbind_attr (n : nat) (v : val) : res val :=
  match v with
  | VSeq c l => if issubclass c CVarBind then match nth_error l n with Some x => Ok x | None => Err AttributeError end else Err AttributeError
  | _ => Err AttributeError
  end.
Definition objectID (v : val) : res val := varbind_attr 0 v.
Definition objectValue (v : val) : res val := varbind_attr 1 v.
(** c.__name__ *)
Definition cls_name (c : cls) : str :=
  text match c with
       | CAsn1Object => "Asn1Object" | CInteger => "Integer" | COctetString | COctetString_v2 => "OctetString" | CObjectID => "ObjectID"
       | CNull => "Null" | CSequence => "Sequence" | CSequenceOf => "SequenceOf" | CIPAddress => "IPAddress" | CNetworkAddress => "NetworkAddress"
       | CCounter => "Counter" | CGuage => "Guage" | CTimeTicks => "TimeTicks" | COpaque => "Opaque"
       | CErrorStatus | CErrorStatus_v2 => "ErrorStatus" | CVarBind | CVarBind_v2 => "VarBind" | CVarBindList | CVarBindList_v2 => "VarBindList"
       | CMessage | CMessage_v2 => "Message" | CPDU | CPDU_v2 => "PDU" | CGet | CGet_v2 => "Get" | CGetNext | CGetNext_v2 => "GetNext"
       | CResponse | CResponse_v2 => "Response" | CSet | CSet_v2 => "Set" | CGenericTrap => "GenericTrap" | CTrapPDU => "TrapPDU"
       | CInteger32 => "Integer32" | CCounter32 => "Counter32" | CGuage32 => "Guage32" | CCounter64 => "Counter64"
       | CNoSuchObject => "NoSuchObject" | CNoSuchInstance => "NoSuchInstance" | CEndOfMibView => "EndOfMibView"
       | CBulkPDU => "BulkPDU" | CGetBulk => "GetBulk" | CInform => "Inform" | CTrapV2 => "TrapV2" | CReport => "Report"
       end%string.
(** v.__class__.__name__ *)
Definition class_name (v : val) : str :=
  match v with
  | VNone => text "NoneType" | VPyInt _ => text "int" | VPyStr _ => text "str" | VPyList _ => text "list"
  | VOid _ => cls_name CObjectID
  | VInt c _ | VOct c _ | VNull c | VSeq c _ => cls_name c
  end%string.
(** v.value, where it is text *)
Definition oct_value (v : val) : res str := match v with VOct _ (VPyStr s) => Ok s | VOct _ _ => Err TypeError | _ => Err AttributeError end.

(** unwrapVarBinds: snmpget.py 24-34, snmpset.py 26-34, snmpget-v1.py and -v2.py 25-33 ([twice]: the value is printed twice), snmpwalk.py
    29-39; with [hex], followed by the hexadecimal dump of an OctetString (snmpget.py 33-34, snmpwalk.py 38-39). *)
Definition unwrapVarBinds (tab : table) (twice hex : bool) (vbl : val) (k : val -> script) : script :=
  eval (vb <- py_getitem vbl 0 ;; n <- objectID vb ;; v <- objectValue vb ;; Ok (n, v)) (fun nv =>
  eval (a <- py_str tab (fst nv) ;; b <- py_str tab (snd nv) ;; Ok (a, b)) (fun ab =>
  Say (fst ab ++ text " = " ++ class_name (snd nv) ++ text ": " ++ (if twice then text "(" ++ snd ab ++ text ") " else []) ++ snd ab)%list
  (if (hex && str_eqb (class_name (snd nv)) (text "OctetString"))%bool then
     eval (oct_value (snd nv)) (fun s => Say (text "   hex: " ++ octetsToHex s)%list (k (snd nv)))
   else k (snd nv)))).
(** checkResponse: snmpget.py 13-21, snmpset.py 15-23, snmpget-v1.py and -v2.py 14-22, snmpwalk.py 16-26.  [next] is what follows. *)
Definition checkResponse (tab : table) (twice hex : bool) (msg : message) (next : val -> val -> script) : script :=
  eval (es <- errorStatus (m_data msg) ;; z <- py_int es ;; Ok (es, z)) (fun ez =>
  if snd ez =? 0 then
    eval (varBindList (m_data msg)) (fun vbl => unwrapVarBinds tab twice hex vbl (next vbl))
  else eval (py_str tab (fst ez)) (fun s => Say (text "Error: " ++ s)%list (Stop (Ok tt)))).
Definition stop (_ _ : val) : script := Stop (Ok tt).
(** whenDone: sys.exit(0) in all of them but trapsender.py (snmpget.py 38-39, snmpset.py 38-39, snmpwalk.py 51-52, snmpget-v1.py and -v2.py 37-38,
    traplistener.py 49-50). *)
Definition exit0 : script := Stop (Err SystemExit).
Definition usage (line : str) : script := Say line (Stop (Err SystemExit)).

(** snmpget.py; its main part is 47-65. *)
Definition get_main (args : list str) : script :=
  match args with
  | [server; community; oid] => Ask (AGet (VPyStr oid) (server, 161) cb_response (VPyStr community) 2) (Stop (Ok tt))
  | _ => usage (text "Usage: snmpget.py <server> <community> <oid>")
  end%string.
Definition snmpget_py : program :=
  mkProgram FSM Tuple true false get_main (fun _ tab msg => checkResponse tab true true msg stop) (fun _ _ => Stop (Ok tt)) exit0.
(** snmpset.py; its main part is 47-71. *)
Definition set_main (args : list str) : script :=
  match args with
  | [server; community; oid; type; value] => eval (snmpset_call cb_response server community oid type value) (fun a => Ask a (Stop (Ok tt)))
  | _ => usage (text "Usage: snmpset.py <server> <community> <oid> <type> <value>")
  end%string.
Definition snmpset_py : program :=
  mkProgram FSM Tuple true false set_main (fun _ tab msg => checkResponse tab true false msg stop) (fun _ _ => Stop (Ok tt)) exit0.
(** snmpwalk.py: after printing, 41-47 leave the program for two class names, and 26 asks for the next object, with the bindings
    just received.  Its main part is 58-70. *)
Definition walk_next (args : list str) (vbl v : val) : script :=
  if (str_eqb (class_name v) (text "NoSuchObject") || str_eqb (class_name v) (text "EndOfMibView"))%string%bool then exit0
  else match args with
       | server :: community :: _ => Ask (AGetNext vbl (server, 161) cb_response (VPyStr community) 2) (Stop (Ok tt))
       | _ => Stop (Err IndexError)
       end.
Definition snmpwalk_py : program :=
  mkProgram FSM Tuple true false get_main (fun args tab msg => checkResponse tab false true msg (walk_next args)) (fun _ _ => Stop (Ok tt)) exit0.
(** snmpget-v1.py and snmpget-v2.py 45-64: SNMP(whenDone) (49) passes whenDone as the interface. *)
Definition snmpget_v1_py : program :=
  mkProgram FV1 NotTuple false false get_main (fun _ tab msg => checkResponse tab true false msg stop) (fun _ _ => Stop (Ok tt)) exit0.
Definition snmpget_v2_py : program :=
  mkProgram FV2 NotTuple false false get_main (fun _ tab msg => checkResponse tab true false msg stop) (fun _ _ => Stop (Ok tt)) exit0.

(** traplistener.py 12-32 and 55-60.  pdu.enterprise ... pdu.varBindList are the elements of a TrapPDU (rfc1157.py 237-242).
    str(v.value): the value of a Sequence is a list of objects; how Python prints that is left open ([shown]). *)
Definition trap_attr (n : nat) (v : val) : res val :=
  match v with
  | VSeq c l => if issubclass c CTrapPDU then match nth_error l n with Some x => Ok x | None => Err AttributeError end else Err AttributeError
  | _ => Err AttributeError
  end.
Definition str_of_value (shown : list val -> str) (v : val) : res str :=
  match v with
  | VInt _ z => Ok (py_str_of_int z)
  | VOct _ (VPyStr s) => Ok s
  | VOct _ _ => Err TypeError
  | VOid None | VNull _ => Ok (text "None")
  | VOid (Some l) => Ok ([91] ++ commas (map py_str_of_int l) ++ [93])%list
  | VSeq _ l => Ok (shown l)
  | VNone | VPyInt _ | VPyStr _ | VPyList _ => Err AttributeError
  end%string.
Definition generic_enum (v : val) : res str :=
  match v with VInt CGenericTrap z => generictrap_enum z None | _ => Err AttributeError end.
(** str.join *)
Fixpoint join (sep : str) (l : list str) : str :=
  match l with [] => [] | [x] => x | x :: r => x ++ sep ++ join sep r end%list.
Fixpoint show_bindings (tab : table) (l : list val) : script :=
  match l with
  | [] => Stop (Ok tt)
  | vb :: r => eval (n <- objectID vb ;; v <- objectValue vb ;; a <- py_str tab n ;; b <- py_str tab v ;; Ok (a ++ [44] ++ b)%list) (fun s =>
               Say ([32; 32] ++ s)%list (show_bindings tab r))
  end.
Definition show_trap (shown : list val -> str) (tab : table) (msg : message) : script :=
  let pdu := m_data msg in
  eval (ent <- (x <- trap_attr 0 pdu ;; py_str tab x) ;;
        ag <- (x <- trap_attr 1 pdu ;; py_str tab x) ;;
        g <- (x <- trap_attr 2 pdu ;; str_of_value shown x) ;;
        en <- (x <- trap_attr 2 pdu ;; generic_enum x) ;;
        sp <- (x <- trap_attr 3 pdu ;; py_str tab x) ;;
        ts <- (x <- trap_attr 4 pdu ;; str_of_value shown x) ;;
        Ok (join [44] [ent; ag; g; en; sp; ts])) (fun front =>
  Say front (eval (x <- trap_attr 5 pdu ;; py_iter x) (show_bindings tab))).
Definition traplistener_py (shown : list val -> str) : program :=
  mkProgram FV2 Tuple false true (fun _ => Stop (Ok tt)) (fun _ _ _ => Stop (Ok tt)) (show_trap shown) exit0.

(** trapsender.py 33-62; [now] is the text of the time, [uptime] what getSysUptime returns.  The waiting loop and the final exit
    (35-37, 51-52) are left out. *)
Definition send_trap (now : str) (uptime : Z) : script :=
  eval (n <- oid_init (VPyStr (text ".1.3.6.1.4.5.6.7")) ;;
        vb <- varbind_init CVarBind n (octetstring_init COctetString (VPyStr now)) ;;
        vbl <- varbindlist_init (VPyList [vb]) ;;
        createTrapPDU FV2 vbl 2 (VPyStr (text ".1.3.6.1.4")) VNone (VPyInt 6) (VPyInt 0) uptime) (fun pdu =>
  Ask (ATrap (text "localhost", 162) pdu (VPyStr (text "public")) 2) (Stop (Ok tt)))%string.
Definition trapsender_py (now : str) (uptime : Z) : program :=
  mkProgram FV2 Tuple true false (fun _ => Stop (Ok tt)) (fun _ _ _ => Stop (Ok tt)) (fun _ _ => Stop (Ok tt)) (send_trap now uptime).

(** ** Execution *)

(** Constructing an SNMPv2 request constructs an rfc1905.ErrorStatus, which extends the table of error texts ([Text]). *)
Definition call_extends (f : flavour) (a : call) (m : mgr) : bool :=
  let reaches c := pdu_reaches_status c (VPyInt (nextRequestID m)) (VPyInt 0) (VPyInt 0) in
  match f, a with
  | FV2, AGet oid _ _ _ _ =>
      match (oids <- py_iter oid ;; vbs <- mapM (null_binding CVarBind) oids ;; varbindlist_v2_init (VPyList vbs)) with Ok _ => reaches CGet_v2 | Err _ => false end
  | FSM, AGet oid _ _ _ v => match oid_init oid with Ok _ => (v =? 2) && reaches CGet_v2 | Err _ => false end
  | FSM, AGetNext _ _ _ _ v => (v =? 2) && reaches CGetNext_v2
  | _, _ => false
  end.
(** What the program is doing: its own code (main part or callback), run(), or nothing: the process has ended. *)
Inductive doing := Own (k : script) | Running | Over (e : exn).
Record pstate := mkP { st_of : state; tab_of : table; doing_of : doing; printed : list str }.
(** Outside events: what poll() finds, what sendto answers. *)
Inductive outside := Finds (i : incoming) | Answers (r : res unit).

(** Construct the manager (role.py 32-34: bind, with outcome [b] for an address tuple) and begin the main part. *)
Definition start (p : program) (b : res unit) (args : list str) : pstate :=
  let bound := match p_interface p with NotTuple => Err TypeError | Tuple => b end in
  mkP init errString0 (match bound with Err e => Over e | Ok _ => Own (p_main p args) end) [].
(** After a step of the manager. *)
Definition resume (p : program) (args : list str) (st : state) (tab : table) (out : list str) : pstate :=
  let d := match stack st, rev (log st) with
           | FResp _ :: _, EInvoke _ _ msg :: _ => Own (p_response p args tab msg)
           | FTrap :: _, EInvokeTrap _ msg :: _ => Own (p_trap p tab msg)
           | FEmpty :: _, _ => Own (p_done p)
           | [], EResult (Err e) :: _ => Over e
           | _, _ => Running
           end in
  mkP st tab d out.
Definition touches (p : program) (t : transport) (tab : table) (i : incoming) : table :=
  match i with
  | Datagram depth s _ => if touch_data (reg_of (imports (system_of p t))) depth (received t s) then extend tab else tab
  | _ => tab
  end.
(** One step of the process; [None] where the outside event is needed and not given, does not fit, or the process has ended. *)
Definition pstep (p : program) (t : transport) (args : list str) (s : pstate) (o : option outside) : option pstate :=
  let 'mkP st tab d out := s in
  let sys := system_of p t in
  match d, o with
  | Own (Say l k), None => Some (mkP st tab (Own k) (out ++ [l]))
  | Own (Ask a k), None =>
      match step sys st (LCall a) with
      | None => None
      | Some st' =>
          let tab' := if call_extends (p_flavour p) a (man st) then extend tab else tab in
          Some (mkP st' tab' (Own (match snd (do_call (p_flavour p) a (man st)) with Ok _ => k | Err e => Stop (Err e) end)) out)
      end
  | Own (Stop r), None =>
      match stack st, r with
      | [], Ok _ => match step sys st LRun with None => None | Some st' => Some (mkP st' tab Running out) end
      | [], Err e => Some (mkP st tab (Over e) out)
      | _, _ => match step sys st (match r with Ok _ => LReturn | Err e => LRaise e end) with
                | None => None
                | Some st' => Some (resume p args st' tab out)
                end
      end
  | Running, Some (Finds i) =>
      match stack st, step sys st (LPoll i) with
      | FRun Polling :: _, Some st' => Some (resume p args st' (touches p t tab i) out)
      | _, _ => None
      end
  | Running, Some (Answers r) =>
      match step sys st (LSend r) with None => None | Some st' => Some (resume p args st' tab out) end
  | _, _ => None
  end.
Fixpoint psteps (p : program) (t : transport) (args : list str) (s : pstate) (tr : list (option outside)) : option pstate :=
  match tr with
  | [] => Some s
  | o :: r => match pstep p t args s o with None => None | Some s' => psteps p t args s' r end
  end.
(** The program, run with these arguments. *)
Definition prun (p : program) (t : transport) (b : res unit) (args : list str) (tr : list (option outside)) : option pstate :=
  psteps p t args (start p b args) tr.
