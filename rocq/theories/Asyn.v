(** * asynrole.Manager (asynrole.py) on asyncore, with any number of managers in one process.

    asyncore keeps one dict for the whole process, asyncore.socket_map, from file descriptors to dispatchers; poll() of
    any manager works on all of it.  Lines of asyncore are those of Lib/asyncore.py of CPython 3.11.  The kernel is
    explicit: a socket has a descriptor, is open or closed, and has a queue of what recvfrom will answer (datagrams
    and errors); select() reports a descriptor when the queue of its socket is not empty; descriptors are chosen by the kernel among
    those not in use; recvfrom on an empty queue blocks (role.py 33 creates blocking sockets, and set_socket, asyncore.py 291-295,
    leaves them so).  User code - the main part and callbacks - is nondeterministic: any operation at any
    time.  Simplifications: descriptors of files other than the managers' sockets are never in the map; exceptional conditions
    of select() do not occur; SystemExit stands for the three exceptions that asyncore.read re-raises (asyncore.py 84-92); sockets
    of managers no longer referred to stay as they are (role.manager.__del__ is added in Collect.v); callback context, destination
    and time are left out; one thread. *)
From Coq Require Import ZArith List Bool.
From Verif Require Import PyBase Role.
Import ListNotations.
Open Scope Z_scope.

Definition packet := res (str * addr).
Record ksock := mkK { k_fd : Z; k_open : bool; k_queue : list packet }.
(** An asynrole.Manager: self.manager.socket, and self.socket and self._fileno of the dispatcher. *)
Record amgr := mkA { a_role : option nat; a_socket : nat; a_fileno : option Z; a_interface : addr }.
(** What a callback is called with: ((response, src), (None, None, None)) or ((None, None), exc_info). *)
Inductive aarg := Data (d : str) (src : addr) | Exc (e : exn).
(** The first argument of the constructor: a pair, whose first part is callable or not; a sequence of another length; something not
    iterable. *)
Inductive cbarg := CbPair (is_callable : bool) | CbLength | CbOther.
Inductive aevent :=
| EOpened (s : nat) (o : nat) (fd : Z)            (* manager o made socket s *)
| ENew (o : nat) (r : res unit)                   (* the constructor returned or raised *)
| ESentto (s : nat) (request : str) (dst : addr)
| ESend (o : nat) (r : res unit)
| EArrive (s : nat) (x : packet)
| ERecv (s : nat) (x : packet)                    (* recvfrom on s answered x *)
| ECb (o : nat) (x : aarg)                        (* manager o's callback is called *)
| ECbEnd (o : nat) (r : res unit)
| EPoll (o : nat)
| EPollEnd (o : nat) (r : res unit)
| EClose (o : nat) (r : res unit).                (* handle_close() or close() *)
(** Activations: poll() of manager [o] with descriptors still to serve; a callback of [o], called from handle_read or from
    handle_error; recvfrom, waiting. *)
Inductive aframe := FPolling (o : nat) (rest : list Z) | FCallback (o : nat) (in_handle_error : bool) | FBlocked (o : nat) (s : nat).
Record astate := mkAS { socks : list ksock; objs : list (option amgr); smap : list (Z * nat); astack : list aframe; alog : list aevent }.
Definition ainit : astate := mkAS [] [] [] [] [].

(** ** dicts and lists *)
Fixpoint map_get (m : list (Z * nat)) (fd : Z) : option nat :=
  match m with [] => None | (k, o) :: r => if k =? fd then Some o else map_get r fd end.
Fixpoint map_set (m : list (Z * nat)) (fd : Z) (o : nat) : list (Z * nat) :=
  match m with [] => [(fd, o)] | (k, x) :: r => if k =? fd then (k, o) :: r else (k, x) :: map_set r fd o end.
Fixpoint map_del (m : list (Z * nat)) (fd : Z) : list (Z * nat) :=
  match m with [] => [] | (k, x) :: r => if k =? fd then r else (k, x) :: map_del r fd end.
Fixpoint upd {A} (l : list A) (n : nat) (x : A) : list A :=
  match l, n with [], _ => [] | _ :: r, O => x :: r | y :: r, S n => y :: upd r n x end.
Definition obj (st : astate) (o : nat) : option amgr := match nth_error (objs st) o with Some m => m | None => None end.
(** The open socket with this descriptor. *)
Definition at_fd (st : astate) (fd : Z) : option ksock := find (fun k => k_open k && (k_fd k =? fd)) (socks st).

(** ** The kernel *)
Definition set_open (st : astate) (s : nat) (b : bool) : astate :=
  match nth_error (socks st) s with
  | Some k => mkAS (upd (socks st) s (mkK (k_fd k) b (k_queue k))) (objs st) (smap st) (astack st) (alog st)
  | None => st
  end.
Definition set_queue (st : astate) (s : nat) (q : list packet) : astate :=
  match nth_error (socks st) s with
  | Some k => mkAS (upd (socks st) s (mkK (k_fd k) (k_open k) q)) (objs st) (smap st) (astack st) (alog st)
  | None => st
  end.
Definition say (st : astate) (e : aevent) : astate := mkAS (socks st) (objs st) (smap st) (astack st) (alog st ++ [e]).
Definition set_obj (st : astate) (o : nat) (m : amgr) : astate := mkAS (socks st) (upd (objs st) o (Some m)) (smap st) (astack st) (alog st).
Definition set_map (st : astate) (m : list (Z * nat)) : astate := mkAS (socks st) (objs st) m (astack st) (alog st).
Definition set_stack (st : astate) (k : list aframe) : astate := mkAS (socks st) (objs st) (smap st) k (alog st).
(** role.manager.open (role.py 31-37) of manager [o]: the socket exists from socket.socket() on, also if bind or setsockopt then
    fail.  Gives the new socket, if there is one. *)
Definition kopen (st : astate) (o : nat) (op : opening) (fd : Z) : astate * option nat * res unit :=
  match o_socket op with
  | Err e => (st, None, Err e)
  | Ok _ =>
      let s := length (socks st) in
      let st' := say (mkAS (socks st ++ [mkK fd true []]) (objs st) (smap st) (astack st) (alog st)) (EOpened s o fd) in
      (st', Some s, match o_bind op with Err e => Err e | Ok _ => match o_option op with Err e => Err e | Ok _ => Ok tt end end)
  end.

(** ** Manager *)
(** Manager.__init__ (asynrole.py 14-31): the callback is tested first; dispatcher.__init__ (asyncore.py 225-252) without a socket
    does not touch the map; role.manager() opens nothing; set_socket (asyncore.py 291-295) enters the descriptor in the map. *)
Definition anew (st : astate) (cb : cbarg) (interface : addr) (op : opening) (fd : Z) : astate :=
  let o := length (objs st) in
  let fail (st : astate) (e : exn) := say (mkAS (socks st) (objs st ++ [None]) (smap st) (astack st) (alog st)) (ENew o (Err e)) in
  match cb with
  | CbOther => fail st TypeError
  | CbLength => fail st ValueError
  | CbPair false => fail st ValueError
  | CbPair true =>
      match kopen st o op fd with
      | (st1, Some s, Ok _) =>
          say (mkAS (socks st1) (objs st1 ++ [Some (mkA (Some s) s (Some fd) interface)]) (map_set (smap st1) fd o) (astack st1) (alog st1)) (ENew o (Ok tt))
      | (st1, _, Err e) => fail st1 e
      | (st1, None, Ok _) => fail st1 AttributeError       (* does not happen *)
      end
  end.
(** Manager.send (asynrole.py 33-35) and role.manager.send (role.py 39-44).  sendto on a closed socket raises OSError. *)
Definition asend (st : astate) (o : nat) (m : amgr) (request : str) (dst : addr) (op : opening) (fd : Z) (r : res unit) : astate :=
  let out (st : astate) (s : nat) :=
    match nth_error (socks st) s with
    | Some k => if k_open k then say (match r with Ok _ => say st (ESentto s request dst) | Err _ => st end) (ESend o r) else say st (ESend o (Err OSError))
    | None => st
    end in
  match a_role m with
  | Some s => out st s
  | None =>
      match kopen st o op fd with
      | (st1, Some s, r1) =>
          let st2 := set_obj st1 o (mkA (Some s) (a_socket m) (a_fileno m) (a_interface m)) in
          match r1 with Ok _ => out st2 s | Err e => say st2 (ESend o (Err e)) end
      | (st1, None, Err e) => say st1 (ESend o (Err e))
      | (st1, None, Ok _) => st1
      end
  end.
(** socket.close(): the descriptor is free whatever the outcome; closing again does nothing. *)
Definition kclose (st : astate) (s : nat) (r : res unit) : astate * res unit :=
  match nth_error (socks st) s with
  | Some k => if k_open k then (set_open st s false, r) else (st, Ok tt)
  | None => (st, Ok tt)
  end.
(** handle_close (asynrole.py 48-50): role.manager.close() (role.py 54-59).  The map keeps the descriptor. *)
Definition ahandle_close (st : astate) (o : nat) (m : amgr) (r : res unit) : astate :=
  match a_role m with
  | None => say st (EClose o (Ok tt))
  | Some s =>
      let '(st1, r1) := kclose st s r in
      match r1 with
      | Err e => say st1 (EClose o (Err e))
      | Ok _ => say (set_obj st1 o (mkA None (a_socket m) (a_fileno m) (a_interface m))) (EClose o (Ok tt))
      end
  end.
(** dispatcher.close (asyncore.py 392-402), which Manager inherits: del_channel (asyncore.py 276-284), then self.socket.close(), whose errors
    other than ENOTCONN and EBADF are raised.  self.manager keeps its socket. *)
Definition aclose (st : astate) (o : nat) (m : amgr) (r : res unit) : astate :=
  let st1 := match a_fileno m with Some fd => set_map st (map_del (smap st) fd) | None => st end in
  let st2 := set_obj st1 o (mkA (a_role m) (a_socket m) None (a_interface m)) in
  let '(st3, r3) := kclose st2 (a_socket m) r in
  say st3 (EClose o r3).

(** ** poll *)
(** poll() returns or raises; [k] is the stack below it. *)
Definition poll_end (st : astate) (p : nat) (k : list aframe) (r : res unit) : astate := say (set_stack st k) (EPollEnd p r).
(** An exception in handle_read: asyncore.read (asyncore.py 84-92) re-raises SystemExit and calls handle_error for all others; handle_error (asynrole.py
    52-61) calls the callback for a ValueError and re-raises everything else. *)
Definition read_error (st : astate) (p : nat) (rest : list Z) (k : list aframe) (o : nat) (e : exn) : astate :=
  match e with
  | ValueError => say (set_stack st (FCallback o true :: FPolling p rest :: k)) (ECb o (Exc ValueError))
  | _ => poll_end st p k (Err e)
  end.
(** recvfrom has answered [x]: handle_read (asynrole.py 37-40). *)
Definition got (st : astate) (p : nat) (rest : list Z) (k : list aframe) (o s : nat) (x : packet) : astate :=
  let st1 := say st (ERecv s x) in
  match x with
  | Ok (d, src) => say (set_stack st1 (FCallback o false :: FPolling p rest :: k)) (ECb o (Data d src))
  | Err e => read_error st1 p rest k o e
  end.
(** handle_read of manager [o]: role.manager.read (role.py 46-52). *)
Definition handle_read (st : astate) (p : nat) (rest : list Z) (k : list aframe) (o : nat) : astate :=
  match obj st o with
  | None => st                                             (* does not happen: only managers are in the map *)
  | Some m =>
      match a_role m with
      | None => read_error st p rest k o ValueError        (* 'Socket not initialized' *)
      | Some s =>
          match nth_error (socks st) s with
          | None => st                                     (* does not happen *)
          | Some ks =>
              if k_open ks then
                match k_queue ks with
                | [] => set_stack st (FBlocked o s :: FPolling p rest :: k)
                | x :: q => got (set_queue st s q) p rest k o s x
                end
              else read_error st p rest k o OSError
          end
      end
  end.
(** The loop over the descriptors select() reported (asyncore.py 151-155): map.get(fd), and read. *)
Fixpoint serve (st : astate) (p : nat) (ready : list Z) (k : list aframe) : astate :=
  match ready with
  | [] => poll_end st p k (Ok tt)
  | fd :: rest => match map_get (smap st) fd with None => serve st p rest k | Some o => handle_read st p rest k o end
  end.
(** Manager.poll (asynrole.py 65-66), asyncore.poll (asyncore.py 130-155): select() refuses a descriptor that is not open with OSError. *)
Definition reported (st : astate) (fd : Z) : bool :=
  match at_fd st fd with Some k => match k_queue k with [] => false | _ => true end | None => false end.
Definition apoll (st : astate) (p : nat) : astate :=
  let st1 := say st (EPoll p) in
  let fds := map fst (smap st) in
  if forallb (fun fd => match at_fd st fd with Some _ => true | None => false end) fds
  then serve st1 p (filter (reported st) fds) (astack st)
  else poll_end st1 p (astack st) (Err OSError).

(** ** Execution *)
Inductive alabel :=
| ANew (cb : cbarg) (interface : addr) (op : opening) (fd : Z)
| ASend (o : nat) (request : str) (dst : addr) (op : opening) (fd : Z) (r : res unit)
| APoll (o : nat)
| AHandleClose (o : nat) (r : res unit)
| AClose (o : nat) (r : res unit)
| AReturn                                        (* the callback that runs returns *)
| ARaise (e : exn)                               (* ... or raises *)
| AArrive (s : nat) (x : packet).                (* the kernel queues something *)
Definition auser (k : list aframe) : bool := match k with [] | FCallback _ _ :: _ => true | _ => false end.
Definition fd_free (st : astate) (fd : Z) : bool := match at_fd st fd with None => true | Some _ => false end.
Definition with_obj (st : astate) (o : nat) (f : amgr -> astate) : option astate :=
  if auser (astack st) then match obj st o with Some m => Some (f m) | None => None end else None.
Definition astep (st : astate) (l : alabel) : option astate :=
  match l with
  | ANew cb i op fd => if auser (astack st) && fd_free st fd then Some (anew st cb i op fd) else None
  | ASend o q dst op fd r => if fd_free st fd then with_obj st o (fun m => asend st o m q dst op fd r) else None
  | APoll o => with_obj st o (fun _ => apoll st o)
  | AHandleClose o r => with_obj st o (fun m => ahandle_close st o m r)
  | AClose o r => with_obj st o (fun m => aclose st o m r)
  | AReturn =>
      match astack st with
      | FCallback o _ :: FPolling p rest :: k => Some (serve (say st (ECbEnd o (Ok tt))) p rest k)
      | _ => None
      end
  | ARaise e =>
      match astack st with
      | FCallback o in_error :: FPolling p rest :: k =>
          let st1 := say st (ECbEnd o (Err e)) in
          Some (if in_error then poll_end st1 p k (Err e) else read_error st1 p rest k o e)
      | _ => None
      end
  | AArrive s x =>
      match nth_error (socks st) s with
      | Some ks =>
          if k_open ks then
            let st1 := say st (EArrive s x) in
            match astack st with
            | FBlocked o s' :: FPolling p rest :: k =>
                if Nat.eqb s s' then Some (got st1 p rest k o s x) else Some (set_queue st1 s (k_queue ks ++ [x]))
            | _ => Some (set_queue st1 s (k_queue ks ++ [x]))
            end
          else None
      | None => None
      end
  end.
Fixpoint asteps (st : astate) (tr : list alabel) : option astate :=
  match tr with [] => Some st | l :: r => match astep st l with None => None | Some st' => asteps st' r end end.
Definition aexec (tr : list alabel) : option astate := asteps ainit tr.
