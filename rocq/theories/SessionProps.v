(* Properties C57, C58 and C86 to C89: the threads of a session *)
From Verif Require Import Py SessionModel SessionSpec SessionProofs.
Open Scope nat_scope.

(* C57 *)
Theorem C57_dispatch_refuted : exists is_subscriber handles n s a b c t name l x,
  history is_subscriber handles n s (a ++ Entered t name l :: b ++ Left t :: c) /\ inside t b /\
  NoDup l /\ In x l /\ handles x name = true /\ ~ In (t, x, name) (calls b).
Proof. exact dispatch_refuted. Qed.
Print Assumptions C57_dispatch_refuted.

(* C57 *)
Theorem C57_dispatch_partial : forall is_subscriber handles n s a b c t name l,
  history is_subscriber handles n s (a ++ Entered t name l :: b ++ Left t :: c) -> inside t b -> none unregisters b ->
  calls b = map (fun x => (t, x, name)) (filter (fun x => handles x name) (l ++ registered b)).
Proof. exact dispatch_partial. Qed.
Print Assumptions C57_dispatch_partial.
(* the handler of 7 registers 9, which is called too *)
Example C57_case :
  match SessionModel.run all_subscribers (fun x _ => negb (Nat.eqb x 8)) (new_session 1)
    (opened ++ message_in ++ ticks 1 1 ++ [Start 1 (Register [9])] ++ ticks 1 3 ++ [Return 1] ++ ticks 1 2 ++ [Return 1] ++ ticks 1 2) with
  | Some (_, es) => es = [Registered 0 7; Registered 0 8; Opened 0; Received 1] ++ Entered 1 "FIBS_Unknown" [7; 8] ::
      [Called 1 7 "FIBS_Unknown"; Registered 1 9; Called 1 9 "FIBS_Unknown"] ++ Left 1 :: []
  | None => False
  end.
Proof. vm_compute. reflexivity. Qed.

(* C58: closed by a handler *)
Theorem C58_close_refuted : exists is_subscriber handles n s a b t u x name,
  history is_subscriber handles n s (a ++ Closed t :: b) /\ In (Called u x name) b.
Proof. exact close_refuted. Qed.
Print Assumptions C58_close_refuted.

(* C58: the event *)
Theorem C58_event_refuted : exists is_subscriber handles n s es t,
  history is_subscriber handles n s es /\ In (Closed t) es /\ In (Opened t) es /\
  forall ls s' es', SessionModel.run is_subscriber handles s ls = Some (s', es') -> none opens es' -> terminated s' = false.
Proof. exact event_refuted. Qed.
Print Assumptions C58_event_refuted.

(* C58 *)
Theorem C58_close_partial : forall is_subscriber handles n s a b t,
  history is_subscriber handles n s (a ++ Closed t :: b) ->
  none starts b /\
  (forall e, In e b -> is_call e = true -> actor e = t /\ n <= t) /\
  (forall u c d, b = c ++ Received u :: d -> is_dead s u -> terminated s = true).
Proof. exact close_partial. Qed.
Print Assumptions C58_close_partial.
(* closed while the listener waits for a message: it sets the event when something comes *)
Example C58_case :
  match SessionModel.run all_subscribers all_handle (new_session 1)
    (opened ++ ticks 1 3 ++ [Start 0 Close] ++ ticks 0 5 ++ [Fail 1 EOF] ++ ticks 1 3) with
  | Some (s, es) => es = [Registered 0 7; Registered 0 8; Opened 0] ++ Closed 0 :: [Received 1; Quit 1] /\ is_dead s 1 /\ terminated s = true
  | None => False
  end.
Proof. vm_compute. auto. Qed.

(* C86 *)
Theorem C86_reopen_refuted : forall is_subscriber handles n s a b t u c,
  history is_subscriber handles n s (a ++ Closed t :: b ++ Opened u :: c) -> t < n -> none is_call c.
Proof. exact reopen. Qed.
Print Assumptions C86_reopen_refuted.
(* opened again, active, a message is received, and nobody is called *)
Example C86_case :
  match SessionModel.run all_subscribers all_handle (new_session 1)
    (opened ++ [Start 0 Close] ++ ticks 0 5 ++ [Start 0 Open] ++ ticks 0 4 ++ ticks 2 3 ++ [Message 2 "FIBS_Unknown"] ++ ticks 2 3) with
  | Some (s, es) => active s = true /\ subscribers s = [7; 8] /\
      es = [Registered 0 7; Registered 0 8; Opened 0] ++ Closed 0 :: [] ++ Opened 0 :: [Received 2; Quit 2]
  | None => False
  end.
Proof. vm_compute. auto. Qed.

(* C87 *)
Theorem C87_raise_refuted : forall is_subscriber handles n s a b t k,
  history is_subscriber handles n s (a ++ Aborted t k :: b) ->
  ~ In (Received t) b /\ forall x name, In (Called t x name) b -> report k name.
Proof. exact raising. Qed.
Print Assumptions C87_raise_refuted.
(* the handler of 7 raises: 8 is not called, the listener is dead and the session still says it is active *)
Example C87_case :
  match SessionModel.run all_subscribers all_handle (new_session 1) (opened ++ message_in ++ ticks 1 1 ++ [Fail 1 Other] ++ ticks 1 1) with
  | Some (s, es) => active s = true /\ is_dead s 1 /\
      es = [Registered 0 7; Registered 0 8; Opened 0; Received 1; Entered 1 "FIBS_Unknown" [7; 8]; Called 1 7 "FIBS_Unknown"] ++ Aborted 1 Other :: []
  | None => False
  end.
Proof. vm_compute. auto. Qed.

(* C88 *)
Theorem C88_exclusion : forall is_subscriber handles n s a b c t name l e,
  history is_subscriber handles n s (a ++ Entered t name l :: b ++ e :: c) -> inside t b -> exclusive e = true -> actor e = t.
Proof. exact exclusion. Qed.
Print Assumptions C88_exclusion.
(* while the handler of 7 runs, thread 0 cannot register anything *)
Example C88_case :
  SessionModel.run all_subscribers all_handle (new_session 1) (opened ++ message_in ++ ticks 1 1 ++ [Start 0 (Register [9])]) <> None /\
  SessionModel.run all_subscribers all_handle (new_session 1) (opened ++ message_in ++ ticks 1 1 ++ [Start 0 (Register [9])] ++ ticks 0 1) = None.
Proof. split; vm_compute; [discriminate|reflexivity]. Qed.

(* C89 *)
Theorem C89_progress : forall is_subscriber handles n s es t d,
  history is_subscriber handles n s es -> owner s = Some (t, d) ->
  place_of (threads s t) <> Dead /\ (place_of (threads s t) = Client -> doing (threads s t) <> None) /\
  exists l, of_thread l = t /\ step is_subscriber handles s l <> None.
Proof. exact progress. Qed.
Print Assumptions C89_progress.
(* a handler that closes the session has the lock twice *)
Example C89_case :
  match SessionModel.run all_subscribers all_handle (new_session 1) (opened ++ message_in ++ ticks 1 1 ++ [Start 1 Close] ++ ticks 1 1) with
  | Some (s, es) => owner s = Some (1, 2)
  | None => False
  end.
Proof. vm_compute. reflexivity. Qed.
