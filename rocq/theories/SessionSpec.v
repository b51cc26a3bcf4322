(* What a session may do, in terms of the events of a run, for SessionProps. *)
From Verif Require Import Py SessionModel.

(* a run of a new session that n threads use: its events in order *)
Definition history (is_subscriber : nat -> bool) (handles : nat -> string -> bool) (n : nat) (s : session) (es : list event) : Prop :=
  exists ls, SessionModel.run is_subscriber handles (new_session n) ls = Some (s, es).

(* who did it *)
Definition actor (e : event) : nat :=
  match e with
  | Entered t _ _ | Called t _ _ | Left t | Aborted t _ | Quit t | Received t
  | Registered t _ | Unregistered t _ | Closed t | Opened t => t
  end.
(* the events between the start of a dispatch by t and its end *)
Definition ends_dispatch (t : nat) (e : event) : bool :=
  match e with Left u | Aborted u _ => Nat.eqb u t | _ => false end.
Definition inside (t : nat) (b : list event) : Prop := Forall (fun e => ends_dispatch t e = false) b.
Definition calls (b : list event) : list (nat * nat * string) :=
  flat_map (fun e => match e with Called t x name => [(t, x, name)] | _ => [] end) b.
Definition registered (b : list event) : list nat :=
  flat_map (fun e => match e with Registered _ x => [x] | _ => [] end) b.
Definition is_call (e : event) : bool := match e with Called _ _ _ => true | _ => false end.
Definition starts (e : event) : bool := match e with Entered _ _ _ => true | _ => false end.
Definition unregisters (e : event) : bool := match e with Unregistered _ _ => true | _ => false end.
Definition opens (e : event) : bool := match e with Opened _ => true | _ => false end.
(* events that need the lock *)
Definition exclusive (e : event) : bool := match e with Received _ | Opened _ => false | _ => true end.
Definition none (p : event -> bool) (b : list event) : Prop := Forall (fun e => p e = false) b.
(* the name under which a listener reports an exception *)
Definition report (k : kind) (name : string) : Prop :=
  match k with SocketError => name = "socket_error"%string | EOF => name = "EOFError"%string | Other => False end.
Definition is_dead (s : session) (t : nat) : Prop := place_of (threads s t) = Dead.
(* can the thread do something now? *)
Definition of_thread (l : label) : nat := match l with Tick t | Start t _ | Message t _ | Fail t _ | Return t => t end.
