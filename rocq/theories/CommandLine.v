(** * The bundled programs as commands: the words of the command line, and the exit status. *)
From Coq Require Import ZArith List Bool.
From Verif Require Import PyBase Classes Values Codec Manager Text Frontend Tools.
Import ListNotations.
Open Scope Z_scope.

(** getopt.getopt(sys.argv[1:], '', []) (snmpget.py 47, snmpwalk.py 58, snmpset.py 47, snmpget-v1.py and -v2.py 46, traplistener.py 56, trapsender.py 57; getopt.py of CPython 3.11):
    as long as the first word begins with "-" and is not "-", it is "--", which is taken away and ends the options, or an option, and there are none: do_longs and do_shorts
    raise GetoptError for every one ([None] here). *)
Definition getopt (words : list str) : option (list str) :=
  match words with
  | (45 :: c :: w) :: rest => match c, w with 45, [] => Some rest | _, _ => None end
  | _ => Some words
  end.
(** The status of a process that has ended by exception [e].  sys.exit is called with 1 in the main parts (snmpget.py 58, snmpwalk.py 65, snmpset.py 58, snmpget-v1.py and -v2.py 57) and with 0 in callbacks (snmpget.py 39, snmpwalk.py
    43, 47, 52, snmpset.py 39, snmpget-v1.py and -v2.py 38, traplistener.py 50), that is, out of run(); any other exception prints a traceback and gives 1. *)
Definition exit_status (s : pstate) : option Z :=
  match doing_of s with
  | Over SystemExit => Some (match rev (log (st_of s)) with EResult _ :: _ => 0 | _ => 1 end)
  | Over _ => Some 1
  | _ => None
  end.
(** The process for a command line: GetoptError ends it before anything else, or the program starts (the manager is made after the command line was read). *)
Inductive command := Refused | Started (args : list str) (s : pstate).
Definition command_start (p : program) (b : res unit) (words : list str) : command :=
  match getopt words with None => Refused | Some args => Started args (start p b args) end.
Definition command_status (c : command) : option Z := match c with Refused => Some 1 | Started _ s => exit_status s end.
