(** * role.manager: the socket life cycle (role.py).

    What the operating system answers to each socket call is arbitrary: it is part of the operation.
    Sockets are numbered in the order of their creation.  A socket object is truthy (it defines neither
    __bool__ nor __len__).  Simplifications: garbage collection of sockets no longer referred to, and __del__ (role.py
    24-26, which calls close), are in Collect.v; requests and messages are uninterpreted text. *)
From Coq Require Import ZArith List Bool.
From Verif Require Import PyBase.
Import ListNotations.
Open Scope Z_scope.

Definition addr := (str * Z)%type.
(** Calls made on sockets. *)
Inductive sysevent :=
| SSocket (s : nat)                                   (* socket.socket(...) returned socket s *)
| SBind (s : nat) (interface : addr) (r : res unit)
| SOption (s : nat) (size : Z) (r : res unit)
| SSendto (s : nat) (request : str) (dst : addr) (r : res unit)
| SRecvfrom (s : nat) (size : Z) (r : res (str * addr))
| SClose (s : nat) (r : res unit).

(** self.dest is never used; self.request_id neither. *)
Record role := mkRole { sock : option nat; interface : addr; socksize : Z }.
(** __init__ (role.py 14-22) *)
Definition role_init (interface : addr) (socksize : Z) : role := mkRole None interface socksize.
(** The process: the manager, how many sockets were created, and the calls so far. *)
Record rstate := mkRState { mgr_of : role; created : nat; calls : list sysevent }.

(** What the system answers to the three calls of open(). *)
Record opening := mkOpening { o_socket : res unit; o_bind : res unit; o_option : res unit }.
Inductive rop :=
| ROpen (o : opening)
| RSend (request : str) (dst : addr) (o : opening) (r : res unit)
| RRead (r : res (str * addr))
| RClose (r : res unit)
| RGetSocket.
Inductive rvalue := RVSocket (s : option nat) | RVData (m : str) (src : addr) | RVNone.

(** open (role.py 31-37): self.socket is assigned before bind is called. *)
Definition role_open (st : rstate) (o : opening) : rstate * res rvalue :=
  let 'mkRState m n cs := st in
  match o_socket o with
  | Err e => (st, Err e)
  | Ok _ =>
      let m' := mkRole (Some n) (interface m) (socksize m) in
      let cs1 := cs ++ [SSocket n; SBind n (interface m) (o_bind o)] in
      match o_bind o with
      | Err e => (mkRState m' (S n) cs1, Err e)
      | Ok _ =>
          let cs2 := cs1 ++ [SOption n (socksize m) (o_option o)] in
          (mkRState m' (S n) cs2, match o_option o with Err e => Err e | Ok _ => Ok (RVSocket (Some n)) end)
      end
  end.
(** send (role.py 39-44) *)
Definition role_send (st : rstate) (request : str) (dst : addr) (o : opening) (r : res unit) : rstate * res rvalue :=
  let '(st1, r1) := match sock (mgr_of st) with None => role_open st o | Some _ => (st, Ok RVNone) end in
  match r1, sock (mgr_of st1) with
  | Err e, _ => (st1, Err e)
  | Ok _, None => (st1, Err AttributeError)      (* None.sendto: unreachable *)
  | Ok _, Some s => (mkRState (mgr_of st1) (created st1) (calls st1 ++ [SSendto s request dst r]),
                     match r with Err e => Err e | Ok _ => Ok RVNone end)
  end.
(** read (role.py 46-52) *)
Definition role_read (st : rstate) (r : res (str * addr)) : rstate * res rvalue :=
  match sock (mgr_of st) with
  | None => (st, Err ValueError)
  | Some s => (mkRState (mgr_of st) (created st) (calls st ++ [SRecvfrom s (socksize (mgr_of st)) r]),
               match r with Err e => Err e | Ok (m, src) => Ok (RVData m src) end)
  end.
(** close (role.py 54-59) *)
Definition role_close (st : rstate) (r : res unit) : rstate * res rvalue :=
  let m := mgr_of st in
  match sock m with
  | None => (mkRState (mkRole None (interface m) (socksize m)) (created st) (calls st), Ok RVNone)
  | Some s =>
      let cs := calls st ++ [SClose s r] in
      match r with
      | Err e => (mkRState m (created st) cs, Err e)
      | Ok _ => (mkRState (mkRole None (interface m) (socksize m)) (created st) cs, Ok RVNone)
      end
  end.
(** get_socket (role.py 28-29) and the others *)
Definition role_do (st : rstate) (o : rop) : rstate * res rvalue :=
  match o with
  | ROpen o => role_open st o
  | RSend q dst o r => role_send st q dst o r
  | RRead r => role_read st r
  | RClose r => role_close st r
  | RGetSocket => (st, Ok (RVSocket (sock (mgr_of st))))
  end.
(** A history, from a new manager. *)
Definition role_run (interface : addr) (socksize : Z) (ops : list rop) : rstate :=
  fold_left (fun st o => fst (role_do st o)) ops (mkRState (role_init interface socksize) 0 []).
