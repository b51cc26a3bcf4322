(* Model of bglib/protocol/session.py: the threads of one session.
   Every statement that touches shared state is a step of its own; a run is a
   list of labels saying which thread does what next, so that a theorem about
   all lists of labels is a theorem about all interleavings.  What the other
   end of the connection sends, what handlers do and when they raise is free.
   Transport._lock is an attribute of the class (session.py:38), so methods of
   other sessions take the same lock: they are [Section].
   Names of cookies are strings; subscribers are numbers, a number standing for an
   object. *)
From Verif Require Import Py.

(* the methods a caller or a handler can use *)
Inductive op :=
| Close                       (* session.py:65-69 *)
| Register (l : list nat)     (* 128-133 *)
| Unregister (l : list nat)   (* 135-139 *)
| Section_                    (* is_active 61-63, send_line 71-74, any method of another session *)
| Open.                       (* 56-59, takes no lock *)
Inductive stmt := TelnetClose | SetInactive | SetRequested | Append (s : nat) | Remove (s : nat) | Nop | SetActive | Spawn.
Definition body (o : op) : list stmt :=
  match o with
  | Close => [TelnetClose; SetInactive; SetRequested]
  | Register l => map Append l
  | Unregister l => map Remove l
  | Section_ => [Nop]
  | Open => [SetActive; Spawn]
  end.
Definition locks (o : op) : bool := match o with Open => false | _ => true end.
(* synchronized_with, session.py:23-34: acquire, the body, release whatever happens *)
Inductive stage := Acquire | Run (rest : list stmt).

(* where the thread is apart from that: not a listener, or in Session._listener (94-112)
   and Session._dispatch (114-126).  [last] says that the dispatch was called from
   an except clause (105, 107), after which the thread ends. *)
Inductive place :=
| Client
| Head                                             (* 98, before acquire *)
| HeadIn                                           (* 63, in is_active *)
| HeadOut (answer : bool)                          (* 31, before release *)
| Expecting                                        (* 100 *)
| Waiting (name : string) (last : bool)            (* 27, before acquire *)
| Testing (name : string) (last : bool)            (* 116 *)
| Loop (name : string) (last : bool) (i : nat)     (* 119, the iterator stands at i *)
| Handling (name : string) (last : bool) (i : nat) (* 125, in the handler of subscriber i *)
| Leaving (next : place)                           (* 31, before release *)
| Dead.
Record thread := mkthread { place_of : place; doing : option (op * stage) }.
Record session := mksession {
  active : bool; requested : bool; terminated : bool;   (* 51-54 *)
  subscribers : list nat;                               (* 92 *)
  owner : option (nat * nat);                           (* RLock: the thread that has it and how many times *)
  threads : nat -> thread;
  next_thread : nat }.
Definition idle : thread := mkthread Client None.
(* a new session, 89-92, and n threads that may use it *)
Definition new_session (n : nat) : session := mksession false false false [] None (fun _ => idle) n.

Inductive kind := SocketError | EOF | Other.
Inductive label :=
| Tick (t : nat)                       (* the thread does the statement it stands at *)
| Start (t : nat) (o : op)             (* the caller or handler calls a method *)
| Message (t : nat) (name : string)    (* expect returns and the monster names the message so, 100-103 *)
| Fail (t : nat) (k : kind)            (* expect or the handler raises *)
| Return (t : nat).                    (* the handler returns *)
Inductive event :=
| Entered (t : nat) (name : string) (l : list nat)   (* _dispatch finds no request to terminate; the subscribers then *)
| Called (t : nat) (s : nat) (name : string)
| Left (t : nat)                                     (* the loop of _dispatch ends *)
| Aborted (t : nat) (k : kind)                       (* a handler raised *)
| Quit (t : nat)                                     (* 116-118 *)
| Received (t : nat)                                 (* expect returned or raised socket.error or EOFError *)
| Registered (t s : nat)
| Unregistered (t s : nat)
| Closed (t : nat)                                   (* close returned *)
| Opened (t : nat).                                  (* a listener was started *)

Definition upd (f : nat -> thread) (t : nat) (x : thread) : nat -> thread := fun u => if Nat.eqb u t then x else f u.
Definition set_thread (s : session) (t : nat) (x : thread) : session :=
  mksession (active s) (requested s) (terminated s) (subscribers s) (owner s) (upd (threads s) t x) (next_thread s).
Definition set_owner (s : session) (o : option (nat * nat)) : session :=
  mksession (active s) (requested s) (terminated s) (subscribers s) o (threads s) (next_thread s).
Definition set_subscribers (s : session) (l : list nat) : session :=
  mksession (active s) (requested s) (terminated s) l (owner s) (threads s) (next_thread s).
(* RLock.acquire: waits (no step) while another thread has it *)
Definition acquire (s : session) (t : nat) : option session :=
  match owner s with
  | None => Some (set_owner s (Some (t, 1%nat)))
  | Some (u, n) => if Nat.eqb u t then Some (set_owner s (Some (t, S n))) else None
  end.
Definition release (s : session) (t : nat) : option session :=
  match owner s with
  | Some (u, S n) => if Nat.eqb u t then Some (set_owner s (match n with 0%nat => None | _ => Some (t, n) end)) else None
  | _ => None
  end.
(* list.remove *)
Fixpoint remove_first (x : nat) (l : list nat) : list nat :=
  match l with [] => [] | y :: l' => if Nat.eqb y x then l' else y :: remove_first x l' end.

Section Machine.
Variable is_subscriber : nat -> bool.           (* isinstance(subscriber, Subscriber) *)
Variable handles : nat -> string -> bool.       (* getattr(subscriber, name) is there and true *)

(* one statement of a method: the new state, what happened, and whether it went well *)
Definition do_stmt (s : session) (t : nat) (c : stmt) : session * list event * bool :=
  match c with
  | TelnetClose | Nop => (s, [], true)
  | SetInactive => (mksession false (requested s) (terminated s) (subscribers s) (owner s) (threads s) (next_thread s), [], true)
  | SetRequested => (mksession (active s) true (terminated s) (subscribers s) (owner s) (threads s) (next_thread s), [], true)
  | SetActive => (mksession true (requested s) (terminated s) (subscribers s) (owner s) (threads s) (next_thread s), [], true)
  | Append x => if is_subscriber x then (set_subscribers s (subscribers s ++ [x]), [Registered t x], true) else (s, [], false)
  | Remove x => if existsb (Nat.eqb x) (subscribers s) then (set_subscribers s (remove_first x (subscribers s)), [Unregistered t x], true)
                else (s, [], false)
  | Spawn => (mksession (active s) (requested s) (terminated s) (subscribers s) (owner s)
                (upd (threads s) (next_thread s) (mkthread Head None)) (S (next_thread s)), [Opened t], true)
  end.
(* where an exception takes the listener, 104-112 *)
Definition handler_of (last : bool) (k : kind) : place :=
  if last then Dead
  else match k with SocketError => Waiting "socket_error" true | EOF => Waiting "EOFError" true | Other => Dead end.

Definition tick (s : session) (t : nat) : option (session * list event) :=
  let th := threads s t in
  let go s p := set_thread s t (mkthread p None) in
  match doing th with
  | Some (o, Acquire) =>
      if locks o then match acquire s t with Some s => Some (set_thread s t (mkthread (place_of th) (Some (o, Run (body o)))), []) | None => None end
      else Some (set_thread s t (mkthread (place_of th) (Some (o, Run (body o)))), [])
  | Some (o, Run (c :: rest)) =>
      let '(s, es, ok) := do_stmt s t c in
      Some (set_thread s t (mkthread (place_of th) (Some (o, Run (if ok then rest else [])))), es)
  | Some (o, Run []) =>
      let es := match o with Close => [Closed t] | _ => [] end in
      if locks o then match release s t with Some s => Some (set_thread s t (mkthread (place_of th) None), es) | None => None end
      else Some (set_thread s t (mkthread (place_of th) None), es)
  | None =>
      match place_of th with
      | Head => match acquire s t with Some s => Some (go s HeadIn, []) | None => None end
      | HeadIn => Some (go s (HeadOut (active s)), [])
      | HeadOut b => match release s t with Some s => Some (go s (if b then Expecting else Dead), []) | None => None end
      | Waiting name last => match acquire s t with Some s => Some (go s (Testing name last), []) | None => None end
      | Testing name last =>
          if requested s then
            Some (go (mksession (active s) (requested s) true (subscribers s) (owner s) (threads s) (next_thread s)) (Leaving Dead), [Quit t])
          else Some (go s (Loop name last 0), [Entered t name (subscribers s)])
      | Loop name last i =>
          match nth_error (subscribers s) i with
          | None => Some (go s (Leaving (if last then Dead else Head)), [Left t])
          | Some x => if handles x name then Some (go s (Handling name last i), [Called t x name])
                      else Some (go s (Loop name last (S i)), [])
          end
      | Leaving p => match release s t with Some s => Some (go s p, []) | None => None end
      | Client | Expecting | Handling _ _ _ | Dead => None
      end
  end.
Definition step (s : session) (l : label) : option (session * list event) :=
  let thread_of t := threads s t in
  match l with
  | Tick t => tick s t
  | Start t o =>
      if Nat.ltb t (next_thread s) then
        match place_of (thread_of t), doing (thread_of t) with
        | Client, None | Handling _ _ _, None => Some (set_thread s t (mkthread (place_of (thread_of t)) (Some (o, Acquire))), [])
        | _, _ => None
        end
      else None
  | Message t name =>
      match place_of (thread_of t) with
      | Expecting => Some (set_thread s t (mkthread (Waiting name false) None), [Received t])
      | _ => None
      end
  | Fail t k =>
      match place_of (thread_of t), doing (thread_of t) with
      | Expecting, None => Some (set_thread s t (mkthread (handler_of false k) None), match k with Other => [] | _ => [Received t] end)
      | Handling name last i, None => Some (set_thread s t (mkthread (Leaving (handler_of last k)) None), [Aborted t k])
      | _, _ => None
      end
  | Return t =>
      match place_of (thread_of t), doing (thread_of t) with
      | Handling name last i, None => Some (set_thread s t (mkthread (Loop name last (S i)) None), [])
      | _, _ => None
      end
  end.
Fixpoint run (s : session) (ls : list label) : option (session * list event) :=
  match ls with
  | [] => Some (s, [])
  | l :: ls => match step s l with
               | Some (s, es) => match run s ls with Some (s, es') => Some (s, es ++ es') | None => None end
               | None => None
               end
  end.
End Machine.
