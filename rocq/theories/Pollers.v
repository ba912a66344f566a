(** * Several threads polling: asynrole.Managers (asynrole.py) in one process whose threads all call poll().

    asyncore.socket_map is one dict for the process, so every thread that polls serves the managers of all threads.  A step of a thread is one
    access to something shared: the copy of the map, select(), one lookup in the map, one recvfrom; the interpreter lock makes
    the accesses to Python objects atomic, the kernel the others.  Lines of asyncore are those of Lib/asyncore.py of CPython 3.11.  The kernel is as in
    Asyn.  User code - the main parts of the threads, and callbacks - is nondeterministic.  Simplifications, besides those of Asyn: constructors succeed
    (C69 is about failing ones) and are one step, as is close() (nobody else knows a socket before it is in the map); user code does not call handle_close() (C71), so
    a manager has one socket for good; sending, which does not concern what arrives, is left out; a recvfrom that waits while another thread closes the socket goes on waiting, as on Linux. *)
From Coq Require Import ZArith List Bool.
From Verif Require Import PyBase Role Asyn.
Import ListNotations.
Open Scope Z_scope.

(** A manager: its socket, and _fileno of the dispatcher. *)
Record pman := mkPM { g_sock : nat; g_fileno : option Z }.
(** Where a poll() is: before select(), with the descriptors of the map; before the next lookup; before recvfrom on socket [s] of manager [o]; waiting in it; after it
    has answered [x]; in the callback of [o], called from handle_read or from handle_error. *)
Inductive pphase := Select (fds : list Z) | Serve | Recv (o s : nat) | Wait (o s : nat) | Got (o s : nat) (x : packet) | Calls (o : nat) (in_handle_error : bool).
(** poll() of manager [f_mgr], with descriptors still to serve. *)
Record pframe := mkF { f_mgr : nat; f_rest : list Z; f_phase : pphase }.
(** What happened, and in which thread ([None]: the kernel). *)
Definition pevent := (option nat * aevent)%type.
Record pstate := mkP { p_socks : list ksock; p_mans : list pman; p_map : list (Z * nat); p_stack : nat -> list pframe; p_log : list pevent }.
Definition pinit : pstate := mkP [] [] [] (fun _ => []) [].

(** The open socket with this descriptor. *)
Definition open_at (st : pstate) (fd : Z) : option ksock := find (fun k => k_open k && (k_fd k =? fd)) (p_socks st).
Definition has_data (st : pstate) (fd : Z) : bool := match open_at st fd with Some k => match k_queue k with [] => false | _ => true end | None => false end.
(** User code runs in a thread with this stack. *)
Definition free (k : list pframe) : bool := match k with [] => true | f :: _ => match f_phase f with Calls _ _ => true | _ => false end end.
(** Thread [t] has stack [k] now, and did [es]. *)
Definition goes (st : pstate) (t : nat) (k : list pframe) (es : list aevent) : pstate :=
  mkP (p_socks st) (p_mans st) (p_map st) (fun u => if Nat.eqb u t then k else p_stack st u) (p_log st ++ map (pair (Some t)) es).
Definition set_sock (st : pstate) (s : nat) (k : ksock) : pstate := mkP (upd (p_socks st) s k) (p_mans st) (p_map st) (p_stack st) (p_log st).

(** Manager.__init__ (asynrole.py 14-31), with set_socket (asyncore.py 291-295). *)
Definition pnew (st : pstate) (t : nat) (fd : Z) : pstate :=
  let s := length (p_socks st) in
  let o := length (p_mans st) in
  goes (mkP (p_socks st ++ [mkK fd true []]) (p_mans st ++ [mkPM s (Some fd)]) (map_set (p_map st) fd o) (p_stack st) (p_log st)) t (p_stack st t) [EOpened s o fd; ENew o (Ok tt)].
(** dispatcher.close (asyncore.py 392-402) with del_channel (asyncore.py 276-284). *)
Definition pclose (st : pstate) (t : nat) (o : nat) (m : pman) (r : res unit) : pstate :=
  let map1 := match g_fileno m with Some fd => map_del (p_map st) fd | None => p_map st end in
  let st1 := mkP (p_socks st) (upd (p_mans st) o (mkPM (g_sock m) None)) map1 (p_stack st) (p_log st) in
  match nth_error (p_socks st) (g_sock m) with
  | Some k => if k_open k then goes (set_sock st1 (g_sock m) (mkK (k_fd k) false (k_queue k))) t (p_stack st t) [EClose o r] else goes st1 t (p_stack st t) [EClose o (Ok tt)]
  | None => goes st1 t (p_stack st t) [EClose o (Ok tt)]
  end.
(** An exception in handle_read: asyncore.read (asyncore.py 84-92), handle_error (asynrole.py 52-61); [k] is the stack below. *)
Definition read_fails (st : pstate) (t : nat) (p : nat) (rest : list Z) (k : list pframe) (o : nat) (e : exn) (es : list aevent) : pstate :=
  match e with
  | ValueError => goes st t (mkF p rest (Calls o true) :: k) (es ++ [ECb o (Exc ValueError)])
  | _ => goes st t k (es ++ [EPollEnd p (Err e)])
  end.
(** The library goes on in thread [t]: asyncore.poll (asyncore.py 130-155), handle_read (asynrole.py 37-40), role.manager.read (role.py 46-52).  select() refuses a
    descriptor that is not open with OSError, as does recvfrom a closed socket. *)
Definition pgo (st : pstate) (t : nat) : option pstate :=
  match p_stack st t with
  | [] => None
  | mkF p rest ph :: k =>
      match ph with
      | Select fds =>
          if forallb (fun fd => match open_at st fd with Some _ => true | None => false end) fds
          then Some (goes st t (mkF p (filter (has_data st) fds) Serve :: k) [])
          else Some (goes st t k [EPollEnd p (Err OSError)])
      | Serve =>
          match rest with
          | [] => Some (goes st t k [EPollEnd p (Ok tt)])
          | fd :: rest' =>
              match map_get (p_map st) fd with
              | None => Some (goes st t (mkF p rest' Serve :: k) [])
              | Some o =>
                  match nth_error (p_mans st) o with
                  | Some m => Some (goes st t (mkF p rest' (Recv o (g_sock m)) :: k) [])
                  | None => None                                     (* does not happen *)
                  end
              end
          end
      | Recv o s =>
          match nth_error (p_socks st) s with
          | None => None                                             (* does not happen *)
          | Some ks =>
              if k_open ks then
                match k_queue ks with
                | [] => Some (goes st t (mkF p rest (Wait o s) :: k) [])
                | x :: q => Some (goes (set_sock st s (mkK (k_fd ks) (k_open ks) q)) t (mkF p rest (Got o s x) :: k) [ERecv s x])
                end
              else Some (read_fails st t p rest k o OSError [])
          end
      | Wait o s =>
          match nth_error (p_socks st) s with
          | Some ks =>
              match k_queue ks with
              | [] => None                                           (* recvfrom waits *)
              | x :: q => Some (goes (set_sock st s (mkK (k_fd ks) (k_open ks) q)) t (mkF p rest (Got o s x) :: k) [ERecv s x])
              end
          | None => None                                             (* does not happen *)
          end
      | Got o s x =>
          match x with
          | Ok (d, src) => Some (goes st t (mkF p rest (Calls o false) :: k) [ECb o (Data d src)])
          | Err e => Some (read_fails st t p rest k o e [])
          end
      | Calls _ _ => None                                            (* user code runs *)
      end
  end.

(** What can happen next. *)
Inductive plabel :=
| PNew (t : nat) (fd : Z)                        (* user code in thread t makes a manager; the kernel chooses fd *)
| PClose (t o : nat) (r : res unit)
| PPoll (t p : nat)
| PGo (t : nat)                                  (* the library goes on in thread t *)
| PReturn (t : nat) | PRaise (t : nat) (e : exn) (* the callback running in thread t ends *)
| PArrive (s : nat) (x : packet).                (* the kernel *)
(** Manager.poll (asynrole.py 65-66): asyncore.poll begins with a copy of the map (asyncore.py 133, list(map.items())); a callback ends: handle_read (asynrole.py 37-40) returns
    to asyncore.poll (asyncore.py 151-155), or raises through asyncore.read and handle_error. *)
Definition pstep (st : pstate) (l : plabel) : option pstate :=
  match l with
  | PNew t fd => if free (p_stack st t) && match open_at st fd with None => true | Some _ => false end then Some (pnew st t fd) else None
  | PClose t o r => if free (p_stack st t) then match nth_error (p_mans st) o with Some m => Some (pclose st t o m r) | None => None end else None
  | PPoll t p =>
      if free (p_stack st t) then
        match nth_error (p_mans st) p with
        | Some _ => Some (goes st t (mkF p [] (Select (map fst (p_map st))) :: p_stack st t) [EPoll p])
        | None => None
        end
      else None
  | PGo t => pgo st t
  | PReturn t =>
      match p_stack st t with
      | mkF p rest (Calls o _) :: k => Some (goes st t (mkF p rest Serve :: k) [ECbEnd o (Ok tt)])
      | _ => None
      end
  | PRaise t e =>
      match p_stack st t with
      | mkF p rest (Calls o in_error) :: k =>
          Some (if in_error then goes st t k [ECbEnd o (Err e); EPollEnd p (Err e)] else read_fails st t p rest k o e [ECbEnd o (Err e)])
      | _ => None
      end
  | PArrive s x =>
      match nth_error (p_socks st) s with
      | Some ks => if k_open ks then let st1 := set_sock st s (mkK (k_fd ks) (k_open ks) (k_queue ks ++ [x])) in
                     Some (mkP (p_socks st1) (p_mans st1) (p_map st1) (p_stack st1) (p_log st1 ++ [(None, EArrive s x)]))
                   else None
      | None => None
      end
  end.
Fixpoint psteps (st : pstate) (tr : list plabel) : option pstate :=
  match tr with [] => Some st | l :: r => match pstep st l with None => None | Some st' => psteps st' r end end.
Definition pexec (tr : list plabel) : option pstate := psteps pinit tr.
