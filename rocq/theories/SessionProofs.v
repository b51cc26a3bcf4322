(* Proofs about the threads of a session. *)
From Verif Require Import Py SessionModel SessionSpec.
Open Scope nat_scope.

Lemma list_snoc {A} (l : list A) : l = [] \/ exists m x, l = m ++ [x].
Proof. destruct l as [|x l] using rev_ind; [left|right]; eauto. Qed.

Section P.
Variable is_subscriber : nat -> bool.
Variable handles : nat -> string -> bool.
Notation step := (step is_subscriber handles).
Notation run := (SessionModel.run is_subscriber handles).
Notation tick := (tick is_subscriber handles).
Notation do_stmt := (do_stmt is_subscriber).

Lemma run_snoc s ls l : run s (ls ++ [l]) =
  match run s ls with
  | Some (s1, es) => match step s1 l with Some (s2, e) => Some (s2, es ++ e) | None => None end
  | None => None
  end.
Proof.
  revert s. induction ls as [|l0 ls IH]; intros s; cbn [app SessionModel.run].
  - destruct (step s l) as [[s2 e]|]; [|reflexivity]. cbn. rewrite app_nil_r. reflexivity.
  - destruct (step s l0) as [[s1 e1]|]; [|reflexivity]. rewrite IH. destruct (run s1 ls) as [[s2 e2]|]; [|reflexivity].
    destruct (step s2 l) as [[s3 e3]|]; [|reflexivity]. rewrite app_assoc. reflexivity.
Qed.
(* reachable: a state with the events that led to it *)
Inductive reach (s0 : session) : session -> list event -> Prop :=
| r_nil : reach s0 s0 []
| r_step s es l s' e : reach s0 s es -> step s l = Some (s', e) -> reach s0 s' (es ++ e).
Lemma run_reach s0 ls s es : run s0 ls = Some (s, es) -> reach s0 s es.
Proof.
  revert s es. induction ls as [|l ls IH] using rev_ind; intros s es H.
  - injection H as <- <-. constructor.
  - rewrite run_snoc in H. destruct (run s0 ls) as [[s1 e1]|]; [|discriminate]. destruct (step s1 l) as [[s2 e2]|] eqn:E; [|discriminate].
    injection H as <- <-. econstructor; eauto.
Qed.

(* ---- the steps, listed ---- *)
Definition moved s t p d := set_thread s t (mkthread p d).
Inductive does (s : session) (t : nat) : session -> list event -> Prop :=
| d_start o : t < next_thread s -> doing (threads s t) = None ->
    (place_of (threads s t) = Client \/ exists n l i, place_of (threads s t) = Handling n l i) ->
    does s t (moved s t (place_of (threads s t)) (Some (o, Acquire))) []
| d_acquire o s1 : doing (threads s t) = Some (o, Acquire) -> locks o = true -> acquire s t = Some s1 ->
    does s t (moved s1 t (place_of (threads s t)) (Some (o, Run (body o)))) []
| d_begin o : doing (threads s t) = Some (o, Acquire) -> locks o = false ->
    does s t (moved s t (place_of (threads s t)) (Some (o, Run (body o)))) []
| d_stmt o c rest s1 es ok : doing (threads s t) = Some (o, Run (c :: rest)) -> do_stmt s t c = (s1, es, ok) ->
    does s t (moved s1 t (place_of (threads s t)) (Some (o, Run (if ok then rest else [])))) es
| d_release o s1 : doing (threads s t) = Some (o, Run []) -> locks o = true -> release s t = Some s1 ->
    does s t (moved s1 t (place_of (threads s t)) None) (match o with Close => [Closed t] | _ => [] end)
| d_end o : doing (threads s t) = Some (o, Run []) -> locks o = false ->
    does s t (moved s t (place_of (threads s t)) None) (match o with Close => [Closed t] | _ => [] end)
| d_head s1 : doing (threads s t) = None -> place_of (threads s t) = Head -> acquire s t = Some s1 -> does s t (moved s1 t HeadIn None) []
| d_headin : doing (threads s t) = None -> place_of (threads s t) = HeadIn -> does s t (moved s t (HeadOut (active s)) None) []
| d_headout b s1 : doing (threads s t) = None -> place_of (threads s t) = HeadOut b -> release s t = Some s1 ->
    does s t (moved s1 t (if b then Expecting else Dead) None) []
| d_message name : place_of (threads s t) = Expecting -> does s t (moved s t (Waiting name false) None) [Received t]
| d_fail k : doing (threads s t) = None -> place_of (threads s t) = Expecting ->
    does s t (moved s t (handler_of false k) None) (match k with Other => [] | _ => [Received t] end)
| d_wait name last s1 : doing (threads s t) = None -> place_of (threads s t) = Waiting name last -> acquire s t = Some s1 ->
    does s t (moved s1 t (Testing name last) None) []
| d_quit name last : doing (threads s t) = None -> place_of (threads s t) = Testing name last -> requested s = true ->
    does s t (moved (mksession (active s) true true (subscribers s) (owner s) (threads s) (next_thread s)) t (Leaving Dead) None) [Quit t]
| d_enter name last : doing (threads s t) = None -> place_of (threads s t) = Testing name last -> requested s = false ->
    does s t (moved s t (Loop name last 0) None) [Entered t name (subscribers s)]
| d_left name last i : doing (threads s t) = None -> place_of (threads s t) = Loop name last i -> nth_error (subscribers s) i = None ->
    does s t (moved s t (Leaving (if last then Dead else Head)) None) [Left t]
| d_call name last i x : doing (threads s t) = None -> place_of (threads s t) = Loop name last i -> nth_error (subscribers s) i = Some x ->
    handles x name = true -> does s t (moved s t (Handling name last i) None) [Called t x name]
| d_skip name last i x : doing (threads s t) = None -> place_of (threads s t) = Loop name last i -> nth_error (subscribers s) i = Some x ->
    handles x name = false -> does s t (moved s t (Loop name last (S i)) None) []
| d_raise name last i k : doing (threads s t) = None -> place_of (threads s t) = Handling name last i ->
    does s t (moved s t (Leaving (handler_of last k)) None) [Aborted t k]
| d_return name last i : doing (threads s t) = None -> place_of (threads s t) = Handling name last i ->
    does s t (moved s t (Loop name last (S i)) None) []
| d_leave p s1 : doing (threads s t) = None -> place_of (threads s t) = Leaving p -> release s t = Some s1 -> does s t (moved s1 t p None) [].

Lemma step_does s l s' es : step s l = Some (s', es) -> does s (of_thread l) s' es.
Proof.
  destruct l as [t|t o|t name|t k|t]; cbn [SessionModel.step of_thread].
  - unfold SessionModel.tick. destruct (doing (threads s t)) as [[o [|[|c rest]]]|] eqn:D.
    + destruct (locks o) eqn:L0.
      * destruct (acquire s t) eqn:A; [|discriminate]. intros H. injection H as <- <-. eapply d_acquire; eauto.
      * intros H. injection H as <- <-. eapply d_begin; eauto.
    + destruct (locks o) eqn:L0.
      * destruct (release s t) eqn:A; [|discriminate]. intros H. injection H as <- <-. eapply d_release; eauto.
      * intros H. injection H as <- <-. eapply d_end; eauto.
    + destruct (do_stmt s t c) as [[s1 e1] ok] eqn:A. intros H. injection H as <- <-. eapply d_stmt; eauto.
    + destruct (place_of (threads s t)) eqn:P; try discriminate.
      * destruct (acquire s t) eqn:A; [|discriminate]. intros H. injection H as <- <-. eapply d_head; eauto.
      * intros H. injection H as <- <-. eapply d_headin; eauto.
      * destruct (release s t) eqn:A; [|discriminate]. intros H. injection H as <- <-. eapply d_headout; eauto.
      * destruct (acquire s t) eqn:A; [|discriminate]. intros H. injection H as <- <-. eapply d_wait; eauto.
      * destruct (requested s) eqn:R; intros H; injection H as <- <-; [eapply d_quit|eapply d_enter]; eauto.
      * destruct (nth_error (subscribers s) i) eqn:N; [destruct (handles n name) eqn:W|]; intros H; injection H as <- <-;
          [eapply d_call|eapply d_skip|eapply d_left]; eauto.
      * destruct (release s t) eqn:A; [|discriminate]. intros H. injection H as <- <-. eapply d_leave; eauto.
  - destruct (Nat.ltb t (next_thread s)) eqn:B; [|discriminate]. apply Nat.ltb_lt in B.
    destruct (place_of (threads s t)) eqn:P; try discriminate; destruct (doing (threads s t)) eqn:D; try discriminate;
      intros H; injection H as <- <-; rewrite <- P; eapply d_start; eauto.
  - destruct (place_of (threads s t)) eqn:P; try discriminate. intros H; injection H as <- <-. eapply d_message; eauto.
  - destruct (place_of (threads s t)) eqn:P; try discriminate; destruct (doing (threads s t)) eqn:D; try discriminate;
      intros H; injection H as <- <-; [eapply d_fail|eapply d_raise]; eauto.
  - destruct (place_of (threads s t)) eqn:P; try discriminate; destruct (doing (threads s t)) eqn:D; try discriminate;
      intros H; injection H as <- <-; eapply d_return; eauto.
Qed.

(* ---- the lock ---- *)
Definition in_place (p : place) : nat := match p with HeadIn | HeadOut _ | Testing _ _ | Loop _ _ _ | Handling _ _ _ | Leaving _ => 1 | _ => 0 end.
Definition in_method (d : option (op * stage)) : nat := match d with Some (o, Run _) => if locks o then 1 else 0 | _ => 0 end.
Definition holds (th : thread) : nat := in_place (place_of th) + in_method (doing th).
Definition lock_ok (s : session) : Prop :=
  match owner s with
  | None => forall t, holds (threads s t) = 0
  | Some (t, d) => d = holds (threads s t) /\ 0 < d /\ forall u, u <> t -> holds (threads s u) = 0
  end.
Record inv (n : nat) (s : session) : Prop := {
  i_lock : lock_ok s;
  i_doing : forall t, doing (threads s t) <> None -> place_of (threads s t) = Client \/ exists m l i, place_of (threads s t) = Handling m l i;
  i_fresh : forall t, next_thread s <= t -> threads s t = idle;
  i_client : forall t, t < n -> place_of (threads s t) = Client;
  i_next : n <= next_thread s;
  i_close : forall t rest, doing (threads s t) = Some (Close, Run rest) -> requested s = true \/ In SetRequested rest;
  i_body : forall t o rest, doing (threads s t) = Some (o, Run rest) -> incl rest (body o);
  i_leaving : forall t p, place_of (threads s t) = Leaving p -> p = Dead \/ p = Head \/ exists m, p = Waiting m true }.

Lemma acquire_ok s t s1 : acquire s t = Some s1 ->
  s1 = set_owner s (owner s1) /\ (owner s = None /\ owner s1 = Some (t, 1) \/ exists d, owner s = Some (t, d) /\ owner s1 = Some (t, S d)).
Proof.
  unfold acquire. destruct (owner s) as [[u d]|] eqn:O.
  - destruct (Nat.eqb_spec u t); [|discriminate]. subst. intros H. injection H as <-. split; [reflexivity|]. right. eauto.
  - intros H. injection H as <-. auto.
Qed.
Lemma release_ok s t s1 : release s t = Some s1 ->
  s1 = set_owner s (owner s1) /\ exists d, owner s = Some (t, S d) /\ owner s1 = (match d with 0 => None | _ => Some (t, d) end).
Proof.
  unfold release. destruct (owner s) as [[u [|d]]|] eqn:O; try discriminate.
  destruct (Nat.eqb_spec u t); [|discriminate]. subst. intros H. injection H as <-. split; [reflexivity|]. exists d. auto.
Qed.
Lemma upd_same f t x : upd f t x t = x.
Proof. unfold upd. rewrite Nat.eqb_refl. reflexivity. Qed.
Lemma upd_other f t x u : u <> t -> upd f t x u = f u.
Proof. intros N. unfold upd. destruct (Nat.eqb_spec u t); congruence. Qed.
(* the owner field after thread t went from th to th' *)
Lemma lock_same s t th' : lock_ok s -> holds th' = holds (threads s t) -> lock_ok (set_thread s t th').
Proof.
  unfold lock_ok. cbn. intros H E. assert (forall u, holds (upd (threads s) t th' u) = holds (threads s u)) as X.
  { intros u. destruct (Nat.eq_dec u t) as [->|N]; [rewrite upd_same; exact E|rewrite upd_other by auto; reflexivity]. }
  destruct (owner s) as [[u d]|]; [|intros v; rewrite X; apply H]. rewrite X. intuition. rewrite X. auto.
Qed.
Lemma lock_acquire s t s1 th' : lock_ok s -> acquire s t = Some s1 -> holds th' = S (holds (threads s t)) -> lock_ok (set_thread s1 t th').
Proof.
  intros H A E. apply acquire_ok in A as [-> [[O O1]|(d & O & O1)]]; unfold lock_ok in *; cbn in *; rewrite O in H; rewrite O1.
  - rewrite upd_same, E, H. repeat split; auto. intros u N. rewrite upd_other by auto. apply H.
  - destruct H as (-> & P & H). rewrite upd_same, E. repeat split; [lia|]. intros u N. rewrite upd_other by auto. auto.
Qed.
Lemma lock_release s t s1 th' : lock_ok s -> release s t = Some s1 -> S (holds th') = holds (threads s t) -> lock_ok (set_thread s1 t th').
Proof.
  intros H A E. apply release_ok in A as [-> (d & O & O1)]; unfold lock_ok in *; cbn in *; rewrite O in H; rewrite O1.
  destruct H as (D & P & H). assert (holds th' = d) by lia. destruct d as [|d].
  - intros u. destruct (Nat.eq_dec u t) as [->|N]; [rewrite upd_same; auto|rewrite upd_other; auto].
  - rewrite upd_same. repeat split; [lia|lia|]. intros u N. rewrite upd_other by auto. auto.
Qed.
(* what statements leave alone *)
Lemma stmt_frame s t c s1 es ok : do_stmt s t c = (s1, es, ok) ->
  owner s1 = owner s /\ (threads s1 = threads s /\ next_thread s1 = next_thread s \/
    threads s1 = upd (threads s) (next_thread s) (mkthread Head None) /\ next_thread s1 = S (next_thread s)) /\
  (requested s1 = requested s \/ requested s1 = true) /\ terminated s1 = terminated s /\
  (c = SetRequested -> requested s1 = true) /\ (requested s = true -> requested s1 = true).
Proof.
  destruct c; cbn; intros H; try (injection H as <- <- <-; cbn; intuition congruence).
  - destruct (is_subscriber s0); injection H as <- <- <-; cbn; intuition congruence.
  - destruct (existsb _ _); injection H as <- <- <-; cbn; intuition congruence.
Qed.

(* the state after a step: one thread moved, perhaps one spawned *)
Lemma does_frame n s t s' es : inv n s -> does s t s' es ->
  exists th f, threads s' = upd f t th /\
  (f = threads s /\ next_thread s' = next_thread s \/
   f = upd (threads s) (next_thread s) (mkthread Head None) /\ next_thread s' = S (next_thread s) /\ t <> next_thread s /\
   (exists o rest, doing (threads s t) = Some (o, Run (Spawn :: rest))) /\ es = [Opened t]) /\
  t < next_thread s.
Proof.
  intros I D.
  assert (B : doing (threads s t) <> None \/ place_of (threads s t) <> Client -> t < next_thread s).
  { intros N. destruct (Nat.lt_ge_cases t (next_thread s)) as [H|H]; [exact H|]. apply (i_fresh _ _ I) in H. rewrite H in N. cbn in N. destruct N; congruence. }
  destruct D; try (match goal with H : acquire _ _ = Some _ |- _ => apply acquire_ok in H as [-> _] end);
    try (match goal with H : release _ _ = Some _ |- _ => apply release_ok in H as [-> _] end);
    try (eexists; exists (threads s); split; [reflexivity|]; split; [left; split; reflexivity|]; first [assumption|apply B; first [left; congruence|right; congruence]]).
  assert (t < next_thread s) as LT by (apply B; left; congruence).
  destruct c; cbn in H0; try (injection H0 as <- <- <-; eexists; exists (threads s); split; [reflexivity|]; split; [left; split; reflexivity|exact LT]).
  - destruct (is_subscriber s0); injection H0 as <- <- <-; eexists; exists (threads s); (split; [reflexivity|]; split; [left; split; reflexivity|exact LT]).
  - destruct (existsb _ _); injection H0 as <- <- <-; eexists; exists (threads s); (split; [reflexivity|]; split; [left; split; reflexivity|exact LT]).
  - injection H0 as <- <- <-. eexists; eexists. split; [reflexivity|]. split; [|exact LT]. right. repeat split; eauto. lia.
Qed.
Lemma does_lock n s t s' es : inv n s -> does s t s' es -> lock_ok s'.
Proof.
  intros I D. pose proof (i_lock _ _ I) as K. pose proof (i_doing _ _ I t) as Q. pose proof (i_leaving _ _ I t) as Lv.
  destruct D; unfold moved;
    try (eapply lock_acquire; [exact K|eassumption|]; unfold holds; cbn [place_of doing]);
    try (eapply lock_release; [exact K|eassumption|]; unfold holds; cbn [place_of doing]);
    try (eapply lock_same; [exact K|]; unfold holds; cbn [place_of doing]);
    try (match goal with H : doing _ = _ |- _ => rewrite H in * end); try (match goal with H : place_of _ = _ |- _ => rewrite H in * end);
    cbn [in_method in_place]; try (match goal with H : locks _ = _ |- _ => rewrite H end); try lia.
  - (* statement *)
    assert (P : lock_ok s1 /\ holds (threads s1 t) = holds (threads s t)).
    { destruct (stmt_frame _ _ _ _ _ _ H0) as (O & [[T N]|[T N]] & _); rewrite T.
      - split; [|reflexivity]. unfold lock_ok. rewrite O, T. exact K.
      - assert (F : threads s (next_thread s) = idle) by (apply (i_fresh _ _ I); lia).
        assert (t <> next_thread s) by (intros ->; rewrite F in H; discriminate).
        rewrite upd_other by auto. split; [|reflexivity].
        assert (X : forall u, holds (upd (threads s) (next_thread s) (mkthread Head None) u) = holds (threads s u)).
        { intros u. destruct (Nat.eq_dec u (next_thread s)) as [->|]; [rewrite upd_same, F; reflexivity|rewrite upd_other by auto; reflexivity]. }
        unfold lock_ok in *. rewrite O, T. destruct (owner s) as [[u d]|]; [rewrite X; intuition; rewrite X; auto|intros u; rewrite X; auto]. }
    destruct P as [P E]. apply lock_same; [exact P|]. rewrite E. unfold holds. cbn [place_of doing]. rewrite H. reflexivity.
  - destruct b; reflexivity.
  - destruct (doing (threads s t)) as [x|] eqn:D; [|reflexivity]. destruct Q as [Q|(m & l & i & Q)]; congruence.
  - destruct k; reflexivity.
  - cbn [threads]. rewrite H, H0. reflexivity.
  - destruct (Lv _ eq_refl) as [->|[->|(m & ->)]]; reflexivity.
Qed.
Lemma expecting_idle n s t : inv n s -> place_of (threads s t) = Expecting -> doing (threads s t) = None.
Proof.
  intros I P. destruct (doing (threads s t)) eqn:D; [|reflexivity]. destruct (i_doing _ _ I t) as [Q|(m & l & i & Q)]; congruence.
Qed.
(* what the thread that moved looks like afterwards *)
Lemma does_thread n s t s' es : inv n s -> does s t s' es ->
  (doing (threads s' t) <> None -> place_of (threads s' t) = Client \/ exists m l i, place_of (threads s' t) = Handling m l i) /\
  (place_of (threads s t) = Client <-> place_of (threads s' t) = Client) /\
  (forall p, place_of (threads s' t) = Leaving p -> p = Dead \/ p = Head \/ exists m, p = Waiting m true) /\
  (forall rest, doing (threads s' t) = Some (Close, Run rest) -> requested s' = true \/ In SetRequested rest) /\
  (forall o rest, doing (threads s' t) = Some (o, Run rest) -> incl rest (body o)) /\
  (requested s = true -> requested s' = true).
Proof.
  intros I D. pose proof (i_doing _ _ I t) as Q. pose proof (i_leaving _ _ I t) as Lv. pose proof (i_close _ _ I t) as C. pose proof (i_body _ _ I t) as Bd.
  pose proof (expecting_idle _ _ t I) as X.
  destruct D; unfold moved; cbn [threads set_thread]; rewrite ?upd_same; cbn [place_of doing requested set_thread];
    try (match goal with H : acquire _ _ = Some _ |- _ => apply acquire_ok in H as [-> _] end);
    try (match goal with H : release _ _ = Some _ |- _ => apply release_ok in H as [-> _] end); cbn [requested set_owner];
    try (match goal with H : doing _ = _ |- _ => rewrite H in * end); try (match goal with H : place_of _ = _ |- _ => rewrite H in * end).
  - repeat split; auto; discriminate.
  - repeat split; auto. { intros _. apply Q; discriminate. } { intros rest E. injection E as -> <-. right. cbn; tauto. } intros o' rest E. injection E as <- <-. apply incl_refl.
  - repeat split; auto. { intros _. apply Q; discriminate. } { intros rest E. injection E as -> <-. discriminate. } intros o' rest E. injection E as <- <-. apply incl_refl.
  - destruct (stmt_frame _ _ _ _ _ _ H0) as (_ & _ & _ & _ & R1 & R2). split; [intros _; apply Q; discriminate|]. split; [tauto|]. split; [auto|].
    split; [|split; [|auto]].
    + intros rest' E. injection E as -> <-. assert (ok = true) as ->.
      { destruct (Bd _ _ eq_refl c (or_introl eq_refl)) as [<-|[<-|[<-|[]]]]; cbn in H0; injection H0 as _ _ <-; reflexivity. }
      destruct (C _ eq_refl) as [R|[R|R]]; auto.
    + intros o' rest' E. injection E as <- <-. destruct ok; [|intros z []]. intros z Z. apply (Bd _ _ eq_refl). right. exact Z.
  - repeat split; auto; discriminate.
  - repeat split; auto; discriminate.
  - repeat split; auto; try discriminate; try congruence.
  - repeat split; auto; try discriminate; try congruence.
  - repeat split; auto; try discriminate; try congruence; destruct b; try discriminate; congruence.
  - repeat split; auto; try discriminate; try congruence.
  - repeat split; auto; try discriminate; try congruence; destruct k; cbn; try discriminate; congruence.
  - repeat split; auto; try discriminate; try congruence.
  - repeat split; auto; try discriminate; try congruence.
    intros p E. injection E as <-. auto.
  - repeat split; auto; try discriminate; try congruence.
  - repeat split; auto; try discriminate; try congruence.
    intros p E. injection E as <-. destruct last; auto.
  - repeat split; auto; try discriminate; try congruence.
  - repeat split; auto; try discriminate; try congruence.
  - repeat split; auto; try discriminate; try congruence.
    intros p E. injection E as <-. unfold handler_of. destruct last; auto. destruct k; eauto.
  - repeat split; auto; try discriminate; try congruence.
  - destruct (Lv _ eq_refl) as [->|[->|(m & ->)]]; repeat split; auto; try discriminate; try congruence.
Qed.
Lemma does_inv n s t s' es : inv n s -> does s t s' es -> inv n s'.
Proof.
  intros I D. destruct (does_thread _ _ _ _ _ I D) as (A1 & A2 & A3 & A4 & A6 & A5).
  destruct (does_frame _ _ _ _ _ I D) as (th & f & T & F & LT).
  assert (O : forall u, u <> t -> threads s' u = threads s u \/ u = next_thread s /\ threads s' u = mkthread Head None).
  { intros u N. rewrite T, upd_other by auto. destruct F as [[-> _]|(-> & _)]; [auto|].
    destruct (Nat.eq_dec u (next_thread s)) as [->|M]; [rewrite upd_same; auto|rewrite upd_other by auto; auto]. }
  assert (NX : next_thread s <= next_thread s') by (destruct F as [[_ ->]|(_ & -> & _)]; lia).
  constructor.
  - eapply does_lock; eauto.
  - intros u H. destruct (Nat.eq_dec u t) as [->|N]; [auto|]. destruct (O u N) as [E|[-> E]]; rewrite E in *; [apply (i_doing _ _ I); auto|cbn in H; congruence].
  - intros u H. destruct (Nat.eq_dec u t) as [->|N]; [lia|]. rewrite T, upd_other by auto. destruct F as [[-> E]|(-> & E & _)]; [apply (i_fresh _ _ I); lia|].
    rewrite upd_other by lia. apply (i_fresh _ _ I). lia.
  - intros u H. pose proof (i_client _ _ I u H) as C. destruct (Nat.eq_dec u t) as [->|N]; [apply A2; exact C|].
    destruct (O u N) as [E|[-> E]]; [rewrite E; exact C|]. pose proof (i_next _ _ I). lia.
  - pose proof (i_next _ _ I). lia.
  - intros u rest H. destruct (Nat.eq_dec u t) as [->|N]; [auto|]. destruct (O u N) as [E|[-> E]]; rewrite E in H; [|discriminate].
    destruct (i_close _ _ I _ _ H) as [R|R]; auto.
  - intros u o rest H. destruct (Nat.eq_dec u t) as [->|N]; [auto|]. destruct (O u N) as [E|[-> E]]; rewrite E in H; [|discriminate].
    exact (i_body _ _ I _ _ _ H).
  - intros u p H. destruct (Nat.eq_dec u t) as [->|N]; [auto|]. destruct (O u N) as [E|[-> E]]; rewrite E in H; [apply (i_leaving _ _ I _ _ H)|discriminate].
Qed.
Lemma new_inv n : inv n (new_session n).
Proof. constructor; cbn; auto; try discriminate. Qed.
Lemma reach_inv n s es : reach (new_session n) s es -> inv n s.
Proof. induction 1; [apply new_inv|]. apply step_does in H0. eapply does_inv; eauto. Qed.

(* ---- induction along a history ---- *)
Lemma does_event s t s' es : does s t s' es -> es = [] \/ exists e, es = [e] /\ actor e = t.
Proof.
  intros D. destruct D; try (left; reflexivity); try (right; eexists; split; reflexivity).
  - destruct c; cbn in H0; try (injection H0 as <- <- <-; (left; reflexivity) || (right; eexists; split; reflexivity)).
    + destruct (is_subscriber s0); injection H0 as <- <- <-; [right; eexists; split; reflexivity|left; reflexivity].
    + destruct (existsb _ _); injection H0 as <- <- <-; [right; eexists; split; reflexivity|left; reflexivity].
  - destruct o; (left; reflexivity) || (right; eexists; split; reflexivity).
  - destruct o; (left; reflexivity) || (right; eexists; split; reflexivity).
  - destruct k; (left; reflexivity) || (right; eexists; split; reflexivity).
Qed.
(* the state just before an event *)
Lemma before_event s0 s h e c : reach s0 s (h ++ e :: c) -> exists s1 s2, reach s0 s1 h /\ does s1 (actor e) s2 [e].
Proof.
  intros R. remember (h ++ e :: c) as g eqn:E. revert c E. induction R as [|s es l s' x R IH St]; intros c E; [destruct h; discriminate|].
  apply step_does in St. destruct (does_event _ _ _ _ St) as [->|(y & -> & Y)].
  - rewrite app_nil_r in E. eauto.
  - destruct (list_snoc c) as [->|(c' & z & ->)].
    + apply app_inj_tail in E as [-> ->]. rewrite Y. eauto.
    + rewrite app_comm_cons, app_assoc in E. apply app_inj_tail in E as [-> ->]. eauto.
Qed.
(* a property of the state that holds once the event e has happened *)
Lemma after_event (s0 : session) a e0 (P : list event -> session -> Prop) :
  (forall s s' , reach s0 s a -> does s (actor e0) s' [e0] -> P [] s') ->
  (forall b s t s' es, reach s0 s (a ++ e0 :: b) -> P b s -> does s t s' es -> P (b ++ es) s') ->
  forall s b, reach s0 s (a ++ e0 :: b) -> P b s.
Proof.
  intros H0 H1 s b R. remember (a ++ e0 :: b) as h eqn:E. revert b E. induction R as [|s es l s' e R IH St]; intros b E.
  - destruct a; discriminate.
  - apply step_does in St. destruct (does_event _ _ _ _ St) as [->|(x & -> & Y)].
    + rewrite app_nil_r in E. subst es. specialize (H1 b s _ s' [] R (IH _ eq_refl) St). rewrite app_nil_r in H1. exact H1.
    + destruct (list_snoc b) as [->|(b' & y & ->)].
      * apply app_inj_tail in E as [-> ->]. rewrite <- Y in St. eapply H0; eauto.
      * rewrite app_comm_cons, app_assoc in E. apply app_inj_tail in E as [-> ->]. eapply H1; eauto.
Qed.
Lemma excl n s t u : inv n s -> 0 < holds (threads s t) -> 0 < holds (threads s u) -> u = t.
Proof.
  intros I T U. pose proof (i_lock _ _ I) as K. unfold lock_ok in K. destruct (owner s) as [[v d]|].
  - destruct K as (_ & _ & K). destruct (Nat.eq_dec t v) as [->|N]; [|rewrite (K t N) in T; lia].
    destruct (Nat.eq_dec u v) as [->|N]; [reflexivity|rewrite (K u N) in U; lia].
  - rewrite K in T. lia.
Qed.
Lemma other_kept n s t s' es u : inv n s -> does s t s' es -> u <> t -> threads s u <> idle -> threads s' u = threads s u.
Proof.
  intros I D N X. destruct (does_frame _ _ _ _ _ I D) as (th & f & T & F & _). rewrite T, upd_other by auto.
  destruct F as [[-> _]|(-> & _)]; [reflexivity|]. rewrite upd_other; [reflexivity|]. intros ->. apply X. apply (i_fresh _ _ I). lia.
Qed.
(* where other threads can be *)
Lemma other_place n s t s' es u : inv n s -> does s t s' es -> u <> t -> threads s' u = threads s u \/ threads s' u = mkthread Head None.
Proof.
  intros I D N. destruct (does_frame _ _ _ _ _ I D) as (th & f & T & F & _). rewrite T, upd_other by auto.
  destruct F as [[-> _]|(-> & _)]; [auto|]. destruct (Nat.eq_dec u (next_thread s)) as [->|M]; [rewrite upd_same; auto|rewrite upd_other by auto; auto].
Qed.
Lemma exclusive_holds n s t s' e : inv n s -> does s t s' [e] -> exclusive e = true -> 0 < holds (threads s t).
Proof.
  intros I D X. unfold holds. inversion D; subst; cbn [exclusive] in X; try discriminate X;
    repeat match goal with H : place_of _ = _ |- _ => rewrite H | H : doing _ = _ |- _ => rewrite H end; cbn [in_place in_method]; try lia.
  - assert (locks o = true) as ->; [|lia]. match goal with H : doing _ = _ |- _ => pose proof (i_body _ _ I _ _ _ H c (or_introl eq_refl)) as C end.
    destruct o; try reflexivity. exfalso.
    destruct C as [<-|[<-|[]]]; match goal with H : do_stmt _ _ _ = _ |- _ => cbn in H; try discriminate H; injection H as <- <- end; discriminate.
  - match goal with H : locks _ = _ |- _ => rewrite H end. lia.
  - destruct o; try discriminate; cbn; lia.
  - destruct k; try discriminate; match goal with H : [_] = [_] |- _ => injection H as <- end; discriminate.
Qed.

(* ---- closing ---- *)
Definition looping (p : place) : bool := match p with Loop _ _ _ | Handling _ _ _ => true | _ => false end.
Lemma looping_holds th : looping (place_of th) = true -> 0 < holds th.
Proof. unfold holds. destruct (place_of th); try discriminate; cbn; lia. Qed.
Lemma becomes_looping n s t s' es : inv n s -> does s t s' es -> looping (place_of (threads s' t)) = true ->
  looping (place_of (threads s t)) = true \/ requested s = false.
Proof.
  intros I D. pose proof (i_leaving _ _ I t) as Lv.
  destruct D; unfold moved; cbn [threads set_thread]; rewrite ?upd_same; cbn [place_of]; auto; try discriminate;
    repeat match goal with H : place_of _ = _ |- _ => rewrite H end; auto.
  - destruct b; discriminate.
  - destruct k; discriminate.
  - destruct (Lv _ H0) as [->|[->|(m & ->)]]; discriminate.
Qed.
Lemma event_cases s t s' e : does s t s' [e] ->
  let th := threads s t in
  match e with
  | Entered u name l => exists last, place_of th = Testing name last /\ doing th = None /\ requested s = false /\ l = subscribers s /\
      s' = moved s t (Loop name last 0) None
  | Called u x name => exists last i, place_of th = Loop name last i /\ doing th = None /\ nth_error (subscribers s) i = Some x /\
      handles x name = true /\ s' = moved s t (Handling name last i) None
  | Left u => exists name last i, place_of th = Loop name last i /\ nth_error (subscribers s) i = None
  | Aborted u k => exists name last i, place_of th = Handling name last i /\ s' = moved s t (Leaving (handler_of last k)) None
  | Quit u => exists name last, place_of th = Testing name last
  | Received u => place_of th = Expecting /\ exists m l, place_of (threads s' t) = Waiting m l
  | Registered u x => exists o rest, doing th = Some (o, Run (Append x :: rest))
  | Unregistered u x => exists o rest, doing th = Some (o, Run (Remove x :: rest))
  | Closed u => doing th = Some (Close, Run [])
  | Opened u => exists o rest, doing th = Some (o, Run (Spawn :: rest))
  end.
Proof.
  intros D. inversion D; subst; cbn zeta.
  - match goal with H : do_stmt _ _ _ = _ |- _ => revert H end. destruct c; cbn [SessionModel.do_stmt]; try discriminate.
    + destruct (is_subscriber s0); intros E; inversion E; subst; eauto.
    + destruct (existsb _ _); intros E; inversion E; subst; eauto.
    + intros E; inversion E; subst; eauto.
  - destruct o; try discriminate. match goal with H : [_] = [_] |- _ => injection H as <- end. assumption.
  - destruct o; discriminate.
  - unfold moved; cbn [threads set_thread]; rewrite ?upd_same; cbn [place_of]. split; eauto.
  - unfold moved; cbn [threads set_thread]; rewrite ?upd_same; cbn [place_of].
    destruct k; try discriminate; match goal with H : [_] = [_] |- _ => injection H as <- end; cbn; split; eauto.
  - eauto.
  - exists last. auto.
  - eauto 6.
  - exists last, i. auto 6.
  - eauto 6.
Qed.
Lemma starts_not_requested s t s' e : does s t s' [e] -> starts e = true -> requested s = false.
Proof. intros D E. apply event_cases in D. destruct e; try discriminate. destruct D as (last & _ & _ & R & _). exact R. Qed.
Lemma call_looping s t s' e : does s t s' [e] -> is_call e = true -> looping (place_of (threads s t)) = true.
Proof. intros D E. apply event_cases in D. destruct e; try discriminate. destruct D as (last & i & -> & _). reflexivity. Qed.
Lemma closed_inv n s t s' : inv n s -> does s t s' [Closed t] ->
  requested s' = true /\ 0 < holds (threads s t) /\ requested s = true.
Proof.
  intros I D. assert (H : 0 < holds (threads s t)) by (eapply exclusive_holds; eauto).
  assert (R : requested s = true /\ doing (threads s t) = Some (Close, Run [])).
  { apply event_cases in D. cbn in D. split; [|exact D]. destruct (i_close _ _ I t []) as [R|[]]; auto. }
  destruct R as [R _]. split; [|split; auto]. destruct (does_thread _ _ _ _ _ I D) as (_ & _ & _ & _ & _ & M). auto.
Qed.
Lemma closed_stop n s a b t : reach (new_session n) s (a ++ Closed t :: b) ->
  requested s = true /\ (forall u, u <> t -> looping (place_of (threads s u)) = false) /\
  none starts b /\ Forall (fun e => is_call e = true -> actor e = t /\ n <= t) b.
Proof.
  revert s b. apply after_event.
  - intros s s' R D. apply reach_inv in R as I. cbn [actor] in D. destruct (closed_inv _ _ _ _ I D) as (R1 & R2 & R3).
    split; auto. split; [|split; constructor]. intros u N. destruct (other_place _ _ _ _ _ u I D N) as [->| ->]; [|reflexivity].
    destruct (looping (place_of (threads s u))) eqn:E; [|reflexivity]. apply looping_holds in E. destruct N. eapply excl; eauto.
  - intros b s v s' es R (R1 & R2 & R3 & R4) D. apply reach_inv in R as I.
    destruct (does_thread _ _ _ _ _ I D) as (_ & _ & _ & _ & _ & M). split; [auto|].
    assert (C : looping (place_of (threads s v)) = true -> v = t /\ n <= t).
    { intros E. destruct (Nat.eq_dec v t) as [->|N]; [|rewrite R2 in E by auto; discriminate]. split; [reflexivity|].
      destruct (Nat.lt_ge_cases t n) as [H|H]; [|exact H]. rewrite (i_client _ _ I t H) in E. discriminate. }
    split; [|split].
    + intros u N. destruct (Nat.eq_dec u v) as [->|NV].
      * destruct (looping (place_of (threads s' v))) eqn:E; [|reflexivity]. destruct (becomes_looping _ _ _ _ _ I D E) as [X|X]; [|congruence].
        apply C in X as [X _]. congruence.
      * destruct (other_place _ _ _ _ _ u I D NV) as [->| ->]; [auto|reflexivity].
    + apply Forall_app. split; [exact R3|]. destruct (does_event _ _ _ _ D) as [->|(e & -> & Y)]; constructor; [|constructor].
      destruct (starts e) eqn:E; [|reflexivity]. rewrite (starts_not_requested _ _ _ _ D E) in R1. discriminate.
    + apply Forall_app. split; [exact R4|]. destruct (does_event _ _ _ _ D) as [->|(e & -> & Y)]; constructor; [|constructor].
      intros E. rewrite Y. apply C. eapply call_looping; eauto.
Qed.

(* the listener that receives something after that sets the event *)
Lemma requested_kept n s t s' es : inv n s -> does s t s' es -> requested s = true -> requested s' = true.
Proof. intros I D. destruct (does_thread _ _ _ _ _ I D) as (_ & _ & _ & _ & _ & M). exact M. Qed.
Lemma terminated_kept s t s' es : does s t s' es -> terminated s = true -> terminated s' = true.
Proof.
  intros D. destruct D; unfold moved; cbn [terminated set_thread]; auto;
    try (match goal with H : acquire _ _ = Some _ |- _ => apply acquire_ok in H as [-> _]; cbn; auto end);
    try (match goal with H : release _ _ = Some _ |- _ => apply release_ok in H as [-> _]; cbn; auto end).
  destruct (stmt_frame _ _ _ _ _ _ H0) as (_ & _ & _ & -> & _). auto.
Qed.
Lemma received_terminates n s h t u c : reach (new_session n) s (h ++ Received u :: c) -> In (Closed t) h ->
  requested s = true /\
  ((exists m l, (place_of (threads s u) = Waiting m l \/ place_of (threads s u) = Testing m l)) \/
   terminated s = true /\ (place_of (threads s u) = Leaving Dead \/ place_of (threads s u) = Dead)).
Proof.
  intros R IN. revert s c R. apply after_event.
  - intros s s' R D. apply in_split in IN as (a & b & ->). destruct (closed_stop _ _ _ _ _ R) as (R1 & _). apply reach_inv in R as I.
    split; [eapply requested_kept; eauto|]. left. apply event_cases in D as (_ & m & l & D). cbn [actor] in D. eauto.
  - intros b s v s' es R (R1 & P) D. apply reach_inv in R as I. split; [eapply requested_kept; eauto|].
    assert (NI : threads s u <> idle).
    { intros E. rewrite E in P. cbn in P. destruct P as [(m & l & [P|P])|[_ [P|P]]]; discriminate. }
    destruct (Nat.eq_dec u v) as [<-|N].
    + assert (ND : doing (threads s u) = None).
      { destruct (doing (threads s u)) eqn:E; [|reflexivity]. exfalso. pose proof (i_doing _ _ I u) as Q.
        destruct Q as [Q|(m0 & l0 & i0 & Q)]; [congruence| |]; rewrite Q in P; destruct P as [(m & l & [P|P])|[_ [P|P]]]; discriminate. }
      destruct D; try congruence; match goal with H : place_of _ = _ |- _ => rewrite H in P | _ => idtac end;
        try (exfalso; destruct P as [(m0 & l0 & [P|P])|[_ [P|P]]]; discriminate).
      * exfalso. destruct H1 as [H1|(a1 & a2 & a3 & H1)]; rewrite H1 in P; destruct P as [(m0 & l0 & [P|P])|[_ [P|P]]]; discriminate.
      * unfold moved; cbn [threads set_thread]; rewrite ?upd_same; cbn [place_of]. left. eauto.
      * unfold moved; cbn [threads set_thread terminated]; rewrite ?upd_same; cbn [place_of]. right. auto.
      * unfold moved; cbn [threads set_thread terminated]; rewrite ?upd_same; cbn [place_of].
        destruct P as [(m0 & l0 & [P|P])|[T [P|P]]]; try discriminate. injection P as ->. right. split; auto.
        apply release_ok in H1 as [-> _]. exact T.
    + rewrite (other_kept _ _ _ _ _ _ I D N NI). destruct P as [P|[T P]]; [auto|]. right. split; [eapply terminated_kept; eauto|exact P].
Qed.

(* ---- a dispatch in progress ---- *)
Definition busy (t : nat) (name : string) (s : session) : Prop :=
  exists last i, place_of (threads s t) = Loop name last i \/ place_of (threads s t) = Handling name last i.
Lemma busy_holds t name s : busy t name s -> 0 < holds (threads s t).
Proof. intros (last & i & [E|E]); unfold holds; rewrite E; cbn; lia. Qed.
Lemma busy_not_idle t name s : busy t name s -> threads s t <> idle.
Proof. intros (last & i & [E|E]) X; rewrite X in E; discriminate. Qed.
(* a busy thread stays busy until its dispatch ends *)
Lemma busy_step n t name s s' es : inv n s -> busy t name s -> does s t s' es -> Forall (fun e => ends_dispatch t e = false) es -> busy t name s'.
Proof.
  intros I (last & i & P) D F. unfold busy. destruct D; unfold moved; cbn [threads set_thread]; rewrite ?upd_same; cbn [place_of];
    try (match goal with H : place_of _ = _ |- _ => rewrite H in P end);
    try (destruct P as [P|P]; discriminate P); try (exists last, i; exact P);
    try (destruct P as [P|P]; try discriminate P; injection P as <- <- <-; eauto; fail);
    inversion F as [|? ? F1 _]; subst; cbn in F1; rewrite Nat.eqb_refl in F1; discriminate.
Qed.
Lemma busy_run n s a b t name l : reach (new_session n) s (a ++ Entered t name l :: b) -> inside t b -> busy t name s.
Proof.
  revert s b. apply (after_event _ a (Entered t name l) (fun b s => inside t b -> busy t name s)).
  - intros s s' R D _. apply event_cases in D as (last & P & Q & _ & _ & ->). exists last, 0. left. unfold moved; cbn [threads set_thread actor]; rewrite ?upd_same. reflexivity.
  - intros b s v s' es R IH D F. apply reach_inv in R as I. apply Forall_app in F as [F1 F2]. specialize (IH F1).
    destruct (Nat.eq_dec t v) as [<-|N]; [eapply busy_step; eauto|].
    unfold busy. rewrite (other_kept _ _ _ _ _ _ I D N (busy_not_idle _ _ _ IH)). exact IH.
Qed.
Lemma no_overlap n s a b c t name l e : reach (new_session n) s (a ++ Entered t name l :: b ++ e :: c) -> inside t b ->
  exclusive e = true -> actor e = t.
Proof.
  intros R F X. rewrite app_comm_cons, app_assoc in R. apply before_event in R as (s1 & s2 & R & D).
  pose proof (busy_run _ _ _ _ _ _ _ R F) as B. apply reach_inv in R as I. eapply excl; [exact I|eapply busy_holds; exact B|eapply exclusive_holds; eauto].
Qed.
(* which calls it has made *)
Definition heard (t : nat) (name : string) (l : list nat) : list (nat * nat * string) :=
  map (fun x => (t, x, name)) (filter (fun x => handles x name) l).
Lemma heard_app t name l m : heard t name (l ++ m) = heard t name l ++ heard t name m.
Proof. unfold heard. rewrite filter_app, map_app. reflexivity. Qed.
Definition so_far (t : nat) (name : string) (l : list nat) (b : list event) (s : session) : Prop :=
  subscribers s = l ++ registered b /\
  exists last i, (place_of (threads s t) = Loop name last i /\ i <= List.length (subscribers s) /\ calls b = heard t name (firstn i (subscribers s))) \/
    (place_of (threads s t) = Handling name last i /\ i < List.length (subscribers s) /\ calls b = heard t name (firstn (S i) (subscribers s))).
Lemma calls_app b c : calls (b ++ c) = calls b ++ calls c.
Proof. apply flat_map_app. Qed.
Lemma registered_app b c : registered (b ++ c) = registered b ++ registered c.
Proof. apply flat_map_app. Qed.
Lemma firstn_snoc {A} (l : list A) i x : nth_error l i = Some x -> firstn (S i) l = firstn i l ++ [x].
Proof. revert i. induction l as [|y l IH]; intros [|i] H; cbn in *; try discriminate; [congruence|]. rewrite (IH _ H). reflexivity. Qed.
(* steps of others: the subscribers stay *)
Lemma subscribers_kept n s t s' es : inv n s -> does s t s' es -> holds (threads s t) = 0 -> subscribers s' = subscribers s.
Proof.
  intros I D Z. destruct D; unfold moved; cbn [subscribers set_thread]; auto;
    try (match goal with H : acquire _ _ = Some _ |- _ => apply acquire_ok in H as [-> _]; cbn; auto end);
    try (match goal with H : release _ _ = Some _ |- _ => apply release_ok in H as [-> _]; cbn; auto end).
  pose proof (i_body _ _ I _ _ _ H c (or_introl eq_refl)) as C. unfold holds in Z. rewrite H in Z. cbn [in_method] in Z.
  destruct o; cbn [locks] in Z; try lia. destruct C as [<-|[<-|[]]]; cbn in H0; injection H0 as <- <- <-; reflexivity.
Qed.
Lemma so_far_step n t name l b s s' es : inv n s -> so_far t name l b s -> does s t s' es ->
  Forall (fun e => ends_dispatch t e = false) es -> Forall (fun e => unregisters e = false) es -> so_far t name l (b ++ es) s'.
Proof.
  intros I (Sb & last & i & P) D F U. unfold so_far. rewrite calls_app, registered_app.
  assert (PP : place_of (threads s t) = Loop name last i \/ place_of (threads s t) = Handling name last i) by tauto.
  destruct D; unfold moved; cbn [threads set_thread subscribers]; rewrite ?upd_same; cbn [place_of subscribers];
    try (match goal with H : place_of _ = _ |- _ => rewrite H in PP, P end);
    try (destruct PP as [PP|PP]; discriminate PP).
  - cbn. rewrite !app_nil_r. eauto.
  - apply acquire_ok in H1 as [-> _]. cbn. rewrite !app_nil_r. eauto.
  - cbn. rewrite !app_nil_r. eauto.
  - assert (place_of (threads s t) = Handling name last i) as PH.
    { destruct PP as [PP|PP]; [|exact PP]. destruct (i_doing _ _ I t) as [Q|(m & l0 & j & Q)]; congruence. }
    destruct P as [[P _]|(_ & Lt & P)]; [congruence|]. rewrite PH.
    assert (X : subscribers s1 = subscribers s ++ registered es /\ calls es = []).
    { destruct c; cbn in H0; try (injection H0 as <- <- <-; cbn; rewrite app_nil_r; auto).
      - destruct (is_subscriber s0); injection H0 as <- <- <-; cbn; rewrite ?app_nil_r; auto.
      - destruct (existsb _ _); injection H0 as <- <- <-; cbn; rewrite ?app_nil_r; auto. inversion U; discriminate. }
    destruct X as [X1 X2]. rewrite X1, X2, app_nil_r, Sb, app_assoc. split; [reflexivity|]. exists last, i. right. split; [reflexivity|].
    rewrite <- Sb. split; [rewrite app_length; lia|]. rewrite firstn_app. replace (S i - List.length (subscribers s)) with 0 by lia. cbn [firstn]. rewrite app_nil_r. exact P.
  - apply release_ok in H1 as [-> _]. destruct o; cbn; rewrite !app_nil_r; eauto.
  - destruct o; cbn; rewrite !app_nil_r; eauto.
  - inversion F as [|? ? F1 _]; subst; cbn in F1; rewrite Nat.eqb_refl in F1; discriminate.
  - destruct PP as [PP|PP]; [|discriminate PP]. injection PP as <- <- <-. cbn [registered flat_map calls]. rewrite !app_nil_r. split; [exact Sb|].
    exists last0, i0. right. split; [reflexivity|]. split; [apply nth_error_Some; congruence|].
    destruct P as [(_ & _ & P)|(P & _)]; [|discriminate]. rewrite P. cbn [app]. rewrite (firstn_snoc _ _ _ H1), heard_app. unfold heard at 3. cbn [filter]. rewrite H2. reflexivity.
  - destruct PP as [PP|PP]; [|discriminate PP]. injection PP as <- <- <-. cbn [registered flat_map calls]. rewrite !app_nil_r. split; [exact Sb|].
    exists last0, (S i0). left. split; [reflexivity|]. split; [apply nth_error_Some; congruence|].
    destruct P as [(_ & _ & P)|(P & _)]; [|discriminate]. rewrite P. rewrite (firstn_snoc _ _ _ H1), heard_app. unfold heard at 3. cbn [filter]. rewrite H2. cbn. rewrite app_nil_r. reflexivity.
  - inversion F as [|? ? F1 _]; subst; cbn in F1; rewrite Nat.eqb_refl in F1; discriminate.
  - destruct PP as [PP|PP]; [discriminate PP|]. injection PP as <- <- <-. cbn [registered flat_map calls]. rewrite !app_nil_r. split; [exact Sb|].
    exists last0, (S i0). left. split; [reflexivity|]. destruct P as [(P & _)|(_ & Lt & P)]; [discriminate|]. split; [lia|exact P].
Qed.
Lemma so_far_run n s a b t name l : reach (new_session n) s (a ++ Entered t name l :: b) -> inside t b -> none unregisters b -> so_far t name l b s.
Proof.
  revert s b. apply (after_event _ a (Entered t name l) (fun b s => inside t b -> none unregisters b -> so_far t name l b s)).
  - intros s s' R D _ _. apply event_cases in D as (last & P & Q & _ & -> & ->). unfold so_far. unfold moved; cbn [threads set_thread actor subscribers].
    rewrite ?upd_same. cbn. rewrite app_nil_r. split; [reflexivity|]. exists last, 0. left. repeat split. lia.
  - intros b s v s' es R IH D F U. apply reach_inv in R as I. apply Forall_app in F as [F1 F2]. apply Forall_app in U as [U1 U2].
    pose proof (busy_run _ _ _ _ _ _ _ R F1) as B. specialize (IH F1 U1).
    destruct (Nat.eq_dec t v) as [<-|N]; [eapply so_far_step; eauto|].
    assert (Z : holds (threads s v) = 0).
    { destruct (holds (threads s v)) eqn:E; [reflexivity|]. destruct N. symmetry. eapply excl; [exact I|eapply busy_holds; exact B|lia]. }
    assert (es = [] \/ exists e, es = [e] /\ exclusive e = false) as Ne.
    { destruct (does_event _ _ _ _ D) as [->|(e & -> & _)]; [auto|]. right. exists e. split; [reflexivity|]. destruct (exclusive e) eqn:X; [|reflexivity].
      pose proof (exclusive_holds _ _ _ _ _ I D X). lia. }
    assert (calls es = [] /\ registered es = []) as [C1 C2].
    { destruct Ne as [->|(e & -> & X)]; [split; reflexivity|]. destruct e; try discriminate; split; reflexivity. }
    unfold so_far. rewrite calls_app, registered_app, C1, C2, !app_nil_r, (subscribers_kept _ _ _ _ _ I D Z), (other_kept _ _ _ _ _ _ I D N (busy_not_idle _ _ _ B)). exact IH.
Qed.
Lemma dispatched n s a b c t name l : reach (new_session n) s (a ++ Entered t name l :: b ++ Left t :: c) -> inside t b -> none unregisters b ->
  calls b = heard t name (l ++ registered b).
Proof.
  intros R F U. rewrite app_comm_cons, app_assoc in R. apply before_event in R as (s1 & s2 & R & D).
  destruct (so_far_run _ _ _ _ _ _ _ R F U) as (Sb & last & i & P). apply event_cases in D as (m & la & j & Q & N). cbn [actor] in Q.
  destruct P as [(P & Le & P2)|(P & _)]; [|congruence]. rewrite P in Q. injection Q as <- <- <-. apply nth_error_None in N.
  rewrite P2, firstn_all2, Sb by lia. reflexivity.
Qed.

(* ---- a handler that raises ---- *)
Definition reporting (k : kind) (p : place) : Prop :=
  p = Dead \/ p = Leaving Dead \/ exists name, report k name /\
    (p = Leaving (Waiting name true) \/ p = Waiting name true \/ p = Testing name true \/ exists i, p = Loop name true i \/ p = Handling name true i).
Lemma reporting_step n k s t s' es : inv n s -> reporting k (place_of (threads s t)) -> does s t s' es ->
  reporting k (place_of (threads s' t)) /\
  Forall (fun e => (forall u, e <> Received u) /\ forall u x name, e = Called u x name -> report k name) es.
Proof.
  intros I P D.
  destruct D; unfold moved; cbn [threads set_thread]; rewrite ?upd_same; cbn [place_of];
    try (split; [exact P|constructor]; fail).
  - split; [exact P|]. destruct c; cbn in H0; try (injection H0 as <- <- <-; repeat constructor; discriminate).
    + destruct (is_subscriber s0); injection H0 as <- <- <-; repeat constructor; discriminate.
    + destruct (existsb _ _); injection H0 as <- <- <-; repeat constructor; discriminate.
  - split; [exact P|]. destruct o; repeat constructor; discriminate.
  - split; [exact P|]. destruct o; repeat constructor; discriminate.
  - rewrite H0 in P. destruct P as [P|[P|(m & _ & [P|[P|[P|(j & [P|P])]]])]]; discriminate.
  - rewrite H0 in P. destruct P as [P|[P|(m & _ & [P|[P|[P|(j & [P|P])]]])]]; discriminate.
  - rewrite H0 in P. destruct P as [P|[P|(m & _ & [P|[P|[P|(j & [P|P])]]])]]; discriminate.
  - rewrite H in P. destruct P as [P|[P|(m & _ & [P|[P|[P|(j & [P|P])]]])]]; discriminate.
  - rewrite H0 in P. destruct P as [P|[P|(m & _ & [P|[P|[P|(j & [P|P])]]])]]; discriminate.
  - rewrite H0 in P. destruct P as [P|[P|(m & M & [P|[P|[P|(j & [P|P])]]])]]; try discriminate. injection P as -> ->.
    split; [|constructor]. right; right. exists m. split; [exact M|]. auto.
  - split; [right; left; reflexivity|]. repeat constructor; discriminate.
  - rewrite H0 in P. destruct P as [P|[P|(m & M & [P|[P|[P|(j & [P|P])]]])]]; try discriminate. injection P as -> ->.
    split; [|repeat constructor; discriminate]. right; right. exists m. split; [exact M|]. right; right; right. eauto.
  - rewrite H0 in P. destruct P as [P|[P|(m & M & [P|[P|[P|(j & [P|P])]]])]]; try discriminate. injection P as -> -> ->.
    split; [|repeat constructor; discriminate]. right; left. reflexivity.
  - rewrite H0 in P. destruct P as [P|[P|(m & M & [P|[P|[P|(j & [P|P])]]])]]; try discriminate. injection P as -> -> ->.
    split; [|constructor; [split; [discriminate|]|constructor]]. { right; right. exists m. split; [exact M|]. right; right; right. eauto. }
    intros u y nm E. injection E as _ _ <-. exact M.
  - rewrite H0 in P. destruct P as [P|[P|(m & M & [P|[P|[P|(j & [P|P])]]])]]; try discriminate. injection P as -> -> ->.
    split; [|constructor]. right; right. exists m. split; [exact M|]. right; right; right. eauto.
  - rewrite H0 in P. destruct P as [P|[P|(m & M & [P|[P|[P|(j & [P|P])]]])]]; try discriminate. injection P as -> -> ->.
    split; [|repeat constructor; discriminate]. right; left. reflexivity.
  - rewrite H0 in P. destruct P as [P|[P|(m & M & [P|[P|[P|(j & [P|P])]]])]]; try discriminate. injection P as -> -> ->.
    split; [|constructor]. right; right. exists m. split; [exact M|]. right; right; right. eauto.
  - rewrite H0 in P. destruct P as [P|[P|(m & M & [P|[P|[P|(j & [P|P])]]])]]; try discriminate; injection P as ->.
    + split; [left; reflexivity|constructor].
    + split; [|constructor]. right; right. exists m. split; [exact M|]. auto.
Qed.
Lemma raised n s a b t k : reach (new_session n) s (a ++ Aborted t k :: b) ->
  reporting k (place_of (threads s t)) /\
  Forall (fun e => actor e = t -> e <> Received t /\ forall x name, e = Called t x name -> report k name) b.
Proof.
  revert s b. apply after_event.
  - intros s s' R D. apply event_cases in D as (name & last & i & P & ->). cbn [actor]. unfold moved; cbn [threads set_thread]; rewrite ?upd_same. cbn [place_of].
    split; [|constructor]. unfold handler_of. destruct last; [right; left; reflexivity|]. destruct k; [right; right|right; right|right; left; reflexivity].
    + exists "socket_error"%string. cbn. auto.
    + exists "EOFError"%string. cbn. auto.
  - intros b s v s' es R (P & F) D. apply reach_inv in R as I. destruct (Nat.eq_dec t v) as [<-|N].
    + destruct (reporting_step _ _ _ _ _ _ I P D) as [P' F']. split; [exact P'|]. apply Forall_app. split; [exact F|].
      eapply Forall_impl; [|exact F']. intros e [E1 E2] _. split; [apply E1|]. intros x name. apply E2.
    + split.
      * rewrite (other_kept _ _ _ _ _ t I D N); [exact P|]. intros X. rewrite X in P. cbn in P.
        destruct P as [P|[P|(m & M & [P|[P|[P|(j & [P|P])]]])]]; discriminate.
      * apply Forall_app. split; [exact F|]. destruct (does_event _ _ _ _ D) as [->|(e & -> & Y)]; constructor; [|constructor]. intros; congruence.
Qed.

(* ---- progress ---- *)
Lemma owner_moves n s t d : inv n s -> owner s = Some (t, d) ->
  place_of (threads s t) <> Dead /\ (place_of (threads s t) = Client -> doing (threads s t) <> None) /\
  exists l, of_thread l = t /\ step s l <> None.
Proof.
  intros I O. pose proof (i_lock _ _ I) as K. unfold lock_ok in K. rewrite O in K. destruct K as (E & P & _). unfold holds in E.
  assert (RL : release s t <> None). { unfold release. rewrite O. destruct d; [lia|]. rewrite Nat.eqb_refl. discriminate. }
  assert (AQ : acquire s t <> None). { unfold acquire. rewrite O, Nat.eqb_refl. discriminate. }
  pose proof (i_doing _ _ I t) as Q.
  split; [|split].
  - intros X. rewrite X in *. destruct (doing (threads s t)) eqn:D; cbn in E; [|lia]. destruct Q as [Q|(m & l & i & Q)]; discriminate.
  - intros X Y. rewrite X, Y in E. cbn in E. lia.
  - destruct (doing (threads s t)) as [[o st]|] eqn:D.
    + exists (Tick t). split; [reflexivity|]. cbn [SessionModel.step]. unfold SessionModel.tick. rewrite D. destruct st as [|[|c rest]].
      * destruct (locks o); [|discriminate]. destruct (acquire s t); [discriminate|congruence].
      * destruct (locks o); [|discriminate]. destruct (release s t); [discriminate|congruence].
      * destruct (do_stmt s t c) as [[s1 es] ok]. discriminate.
    + destruct (place_of (threads s t)) eqn:X; cbn in E; try lia.
      * exists (Tick t). split; [reflexivity|]. cbn [SessionModel.step]. unfold SessionModel.tick. rewrite D, X. discriminate.
      * exists (Tick t). split; [reflexivity|]. cbn [SessionModel.step]. unfold SessionModel.tick. rewrite D, X. destruct (release s t); [discriminate|congruence].
      * exists (Tick t). split; [reflexivity|]. cbn [SessionModel.step]. unfold SessionModel.tick. rewrite D, X. destruct (requested s); discriminate.
      * exists (Tick t). split; [reflexivity|]. cbn [SessionModel.step]. unfold SessionModel.tick. rewrite D, X. destruct (nth_error _ _); [|discriminate].
        destruct (handles _ _); discriminate.
      * exists (Return t). split; [reflexivity|]. cbn [SessionModel.step]. rewrite D, X. discriminate.
      * exists (Tick t). split; [reflexivity|]. cbn [SessionModel.step]. unfold SessionModel.tick. rewrite D, X. destruct (release s t); [discriminate|congruence].
Qed.
End P.

(* ---- the statements ---- *)
Lemma dispatch_partial : forall is_subscriber handles n s a b c t name l,
  history is_subscriber handles n s (a ++ Entered t name l :: b ++ Left t :: c) -> inside t b -> none unregisters b ->
  calls b = map (fun x => (t, x, name)) (filter (fun x => handles x name) (l ++ registered b)).
Proof. intros is_subscriber handles n s a b c t name l [ls H] F U. apply run_reach in H. exact (dispatched _ _ _ _ _ _ _ _ _ _ H F U). Qed.
Lemma exclusion : forall is_subscriber handles n s a b c t name l e,
  history is_subscriber handles n s (a ++ Entered t name l :: b ++ e :: c) -> inside t b -> exclusive e = true -> actor e = t.
Proof. intros is_subscriber handles n s a b c t name l e [ls H] F X. apply run_reach in H. exact (no_overlap _ _ _ _ _ _ _ _ _ _ _ H F X). Qed.
Lemma close_partial : forall is_subscriber handles n s a b t,
  history is_subscriber handles n s (a ++ Closed t :: b) ->
  none starts b /\
  (forall e, In e b -> is_call e = true -> actor e = t /\ n <= t) /\
  (forall u c d, b = c ++ Received u :: d -> is_dead s u -> terminated s = true).
Proof.
  intros is_subscriber handles n s a b t [ls H]. apply run_reach in H. destruct (closed_stop _ _ _ _ _ _ _ H) as (_ & _ & A & B).
  split; [exact A|]. split; [intros e I; apply (proj1 (Forall_forall _ _) B e I)|].
  intros u c d -> X. rewrite app_comm_cons, app_assoc in H. destruct (received_terminates _ _ n s _ t u d H) as [_ [(m & l & [E|E])|[T _]]].
  - apply in_app_iff. right. left. reflexivity.
  - unfold is_dead in X. congruence.
  - unfold is_dead in X. congruence.
  - exact T.
Qed.
Lemma reopen : forall is_subscriber handles n s a b t u c,
  history is_subscriber handles n s (a ++ Closed t :: b ++ Opened u :: c) -> t < n -> none is_call c.
Proof.
  intros is_subscriber handles n s a b t u c H L. destruct (close_partial _ _ _ _ _ _ _ H) as (_ & A & _). apply Forall_forall. intros e I.
  destruct (is_call e) eqn:E; [|reflexivity]. destruct (A e) as [_ X]; [apply in_app_iff; right; right; exact I|exact E|lia].
Qed.
Lemma raising : forall is_subscriber handles n s a b t k,
  history is_subscriber handles n s (a ++ Aborted t k :: b) ->
  ~ In (Received t) b /\ forall x name, In (Called t x name) b -> report k name.
Proof.
  intros is_subscriber handles n s a b t k [ls H]. apply run_reach in H. destruct (raised _ _ _ _ _ _ _ _ H) as [_ F].
  rewrite Forall_forall in F. split.
  - intros I. destruct (F _ I eq_refl) as [A _]. congruence.
  - intros x name I. destruct (F _ I eq_refl) as [_ B]. eauto.
Qed.
Lemma progress : forall is_subscriber handles n s es t d,
  history is_subscriber handles n s es -> owner s = Some (t, d) ->
  place_of (threads s t) <> Dead /\ (place_of (threads s t) = Client -> doing (threads s t) <> None) /\
  exists l, of_thread l = t /\ step is_subscriber handles s l <> None.
Proof. intros is_subscriber handles n s es t d [ls H] O. apply run_reach in H. apply reach_inv in H. eapply owner_moves; eauto. Qed.

(* ---- counterexamples ---- *)
Definition ticks (t n : nat) : list label := repeat (Tick t) n.
Definition all_subscribers (x : nat) : bool := true.
Definition all_handle (x : nat) (name : string) : bool := true.
(* thread 0 registers 7 and 8 and opens the session, the listener 1 gets a message *)
Definition opened : list label :=
  [Start 0 (Register [7; 8])] ++ ticks 0 4 ++ [Start 0 Open] ++ ticks 0 4.
Definition message_in : list label := ticks 1 3 ++ [Message 1 "FIBS_Unknown"] ++ ticks 1 2.
Definition self_removal : list label := opened ++ message_in ++ ticks 1 1 ++ [Start 1 (Unregister [7])] ++ ticks 1 3 ++ [Return 1] ++ ticks 1 1.
Lemma dispatch_refuted : exists is_subscriber handles n s a b c t name l x,
  history is_subscriber handles n s (a ++ Entered t name l :: b ++ Left t :: c) /\ inside t b /\
  NoDup l /\ In x l /\ handles x name = true /\ ~ In (t, x, name) (calls b).
Proof.
  destruct (SessionModel.run all_subscribers all_handle (new_session 1) self_removal) as [[s es]|] eqn:E; [|vm_compute in E; discriminate].
  exists all_subscribers, all_handle, 1, s, [Registered 0 7; Registered 0 8; Opened 0; Received 1],
    [Called 1 7 "FIBS_Unknown"; Unregistered 1 7], [], 1, "FIBS_Unknown"%string, [7; 8], 8.
  split. { exists self_removal. rewrite E. vm_compute in E. injection E as <- <-. reflexivity. }
  split; [repeat constructor|]. split; [repeat constructor; cbn; lia|]. split; [cbn; auto|]. split; [reflexivity|].
  cbn. intros [H|[]]. discriminate.
Qed.
(* a handler closes the session and the next subscriber is still called *)
Definition handler_closes : list label := opened ++ message_in ++ ticks 1 1 ++ [Start 1 Close] ++ ticks 1 5 ++ [Return 1] ++ ticks 1 1.
Lemma close_refuted : exists is_subscriber handles n s a b t u x name,
  history is_subscriber handles n s (a ++ Closed t :: b) /\ In (Called u x name) b.
Proof.
  destruct (SessionModel.run all_subscribers all_handle (new_session 1) handler_closes) as [[s es]|] eqn:E; [|vm_compute in E; discriminate].
  exists all_subscribers, all_handle, 1, s, [Registered 0 7; Registered 0 8; Opened 0; Received 1; Entered 1 "FIBS_Unknown" [7; 8]; Called 1 7 "FIBS_Unknown"],
    [Called 1 8 "FIBS_Unknown"], 1, 1, 8, "FIBS_Unknown"%string.
  split; [|left; reflexivity]. exists handler_closes. rewrite E. vm_compute in E. injection E as <- <-. reflexivity.
Qed.
(* the listener notices at the top of its loop: nobody sets the event *)
Definition quiet_close : list label := opened ++ [Start 0 Close] ++ ticks 0 5 ++ ticks 1 3.
Definition still (s : session) : Prop := terminated s = false /\ forall t, place_of (threads s t) = Client \/ place_of (threads s t) = Dead.
Lemma still_step is_subscriber handles s l s' es : still s -> step is_subscriber handles s l = Some (s', es) -> none opens es -> still s'.
Proof.
  intros [T P] St F. apply step_does in St. pose proof (P (of_thread l)) as Q.
  destruct St; try (match goal with H : place_of _ = _ |- _ => rewrite H in Q; destruct Q; discriminate end);
    try (match goal with H : acquire _ _ = Some _ |- _ => apply acquire_ok in H as [-> _] end);
    try (match goal with H : release _ _ = Some _ |- _ => apply release_ok in H as [-> _] end).
  4: { destruct (stmt_frame _ handles _ _ _ _ _ _ H0) as (_ & [[X _]|[X _]] & _ & Y & _).
    - split; unfold moved; cbn; [congruence|]. intros u. unfold upd. destruct (Nat.eqb u (of_thread l)); [exact Q|]. rewrite X. apply P.
    - destruct c; cbn in H0; try (injection H0 as <- <- <-; exfalso; cbn in X; assert (X2 := f_equal (fun f => place_of (f (next_thread s))) X); cbv beta in X2; rewrite upd_same in X2; destruct (P (next_thread s)); cbn in X2; congruence).
      + destruct (is_subscriber s0); injection H0 as <- <- <-; exfalso; cbn in X; assert (X2 := f_equal (fun f => place_of (f (next_thread s))) X); cbv beta in X2; rewrite upd_same in X2; destruct (P (next_thread s)); cbn in X2; congruence.
      + destruct (existsb _ _); injection H0 as <- <- <-; exfalso; cbn in X; assert (X2 := f_equal (fun f => place_of (f (next_thread s))) X); cbv beta in X2; rewrite upd_same in X2; destruct (P (next_thread s)); cbn in X2; congruence.
      + injection H0 as <- <- <-. inversion F; discriminate. }
  all: split; unfold moved; cbn; [exact T|]; intros u; unfold upd; destruct (Nat.eqb u (of_thread l)); [exact Q|apply P].
Qed.
Lemma still_run is_subscriber handles s ls s' es : still s -> SessionModel.run is_subscriber handles s ls = Some (s', es) -> none opens es -> still s'.
Proof.
  revert s es. induction ls as [|l ls IH]; intros s es St H F; cbn in H.
  - injection H as <- <-. exact St.
  - destruct (step is_subscriber handles s l) as [[s1 e1]|] eqn:E; [|discriminate].
    destruct (SessionModel.run is_subscriber handles s1 ls) as [[s2 e2]|] eqn:E2; [|discriminate]. injection H as <- <-.
    apply Forall_app in F as [F1 F2]. eapply IH; [|exact E2|exact F2]. eapply still_step; eauto.
Qed.
Lemma event_refuted : exists is_subscriber handles n s es t,
  history is_subscriber handles n s es /\ In (Closed t) es /\ In (Opened t) es /\
  forall ls s' es', SessionModel.run is_subscriber handles s ls = Some (s', es') -> none opens es' -> terminated s' = false.
Proof.
  destruct (SessionModel.run all_subscribers all_handle (new_session 1) quiet_close) as [[s es]|] eqn:E; [|vm_compute in E; discriminate].
  exists all_subscribers, all_handle, 1, s, es, 0. assert (H : history all_subscribers all_handle 1 s es) by (exists quiet_close; exact E).
  split; [exact H|]. assert (es = [Registered 0 7; Registered 0 8; Opened 0; Closed 0]) as -> by (vm_compute in E; injection E as _ <-; reflexivity).
  split; [cbn; tauto|]. split; [cbn; tauto|]. intros ls s' es' R F. eapply (still_run _ _ s); eauto.
  split; [vm_compute in E; injection E as <-; reflexivity|]. intros t. vm_compute in E. injection E as <-. cbn.
  destruct t as [|[|t]]; cbn; auto.
Qed.
