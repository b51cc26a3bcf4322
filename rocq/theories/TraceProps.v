(* Properties C122 to C124: tracers, and what GNU ids tell *)
From Verif Require Import Py UtilModel BoardModel BoardSpec GnuModel GnuSpec TraceModel TraceSpec TraceProofs.

(* C122 *)
Theorem C122_start : forall ov od fuel, (3 <= fuel)%nat ->
  (forall m, fits m -> wf_side (fst (position m)) -> wf_side (snd (position m)) -> exists pid mid, encode ov m = Ok (pid, mid) /\
    (~ scored_money m -> new_tracer od fuel (Some (pid ++ colon :: mid)) None = Ok (mkTracer m None)) /\
    (scored_money m -> new_tracer od fuel (Some (pid ++ colon :: mid)) None = Exc InconsistentData)) /\
  (forall s, occurs colon s <> 1%nat -> new_tracer od fuel (Some s) None = Exc ValueError) /\
  (forall s b, new_tracer od fuel s (Some b) = Ok (mkTracer b None)) /\
  new_tracer od fuel None None = Ok (mkTracer default_board None).
Proof. exact tracer_start. Qed.
Print Assumptions C122_start.
(* decode_2_test of gnubg_test.py *)
Example C122_case : forall od, exists t, new_tracer od 3 (Some (L "sGfwATDgc/ABMA:MAEgAgAAAAAA")) None = Ok t /\
  position (t_board t) = ([0; 0; 0; 0; 0; 5; 0; 3; 0; 0; 0; 0; 5; 0; 0; 0; 0; 0; 0; 0; 0; 0; 0; 2; 0],
                          [0; 0; 0; 0; 2; 4; 0; 2; 0; 0; 0; 0; 5; 0; 0; 0; 0; 0; 0; 0; 0; 0; 0; 2; 0]) /\
  match_length (t_board t) = 17 /\ on_action (t_board t) = 0.
Proof. intros od. eexists. split; [vm_compute; reflexivity|]. vm_compute. auto. Qed.
Example C122_no_colon : forall od, new_tracer od 3 (Some (L "sGfwATDgc/ABMA")) None = Exc ValueError.
Proof. intros od. reflexivity. Qed.

(* C123: no question can be asked, also not after an action was announced and accepted *)
Theorem C123_follow_refuted : exists b r t, traced b t /\ acts (on_action b) r /\
  snd (call_tracer (TSet r) t) = Ok None /\
  forall q, snd (call_tracer (TAsk q) (fst (call_tracer (TSet r) t))) = Exc AssertionError.
Proof. exact tracer_refuted. Qed.
Print Assumptions C123_follow_refuted.

(* C123: what a tracer does instead *)
Theorem C123_follow_partial : forall b t, traced b t -> t_board t = b /\
  (forall r, (snd (call_tracer (TSet r) t) = Ok None <-> acts (on_action b) r) /\
             (snd (call_tracer (TSet r) t) = Ok None \/ snd (call_tracer (TSet r) t) = Exc AssertionError)) /\
  forall q, snd (call_tracer (TAsk q) t) = Exc AssertionError.
Proof. exact tracer_idle. Qed.
Print Assumptions C123_follow_partial.
(* the first record of decode_1_test: accepted for O, refused for X, and the question after it fails *)
Example C123_case : let t := mkTracer opening_31 None in traced opening_31 t /\ acts (on_action opening_31) record_31 /\
  snd (call_tracer (TSet (ADict [(L "action", VText (L "move")); (L "player", VText (L "X")); (L "board", VThing 0)])) t) = Exc AssertionError /\
  snd (call_tracer (TAsk QMove) (calls_tracer [TSet record_31] t)) = Exc AssertionError.
Proof.
  cbv zeta. split; [exists []; reflexivity|]. split; [apply set_action_exact; vm_compute; reflexivity|]. split; vm_compute; reflexivity.
Qed.

(* C124 *)
Theorem C124_ids : forall ov, 
  (forall m m', fits m -> fits m' -> wf_side (fst (position m)) -> wf_side (snd (position m)) ->
    wf_side (fst (position m')) -> wf_side (snd (position m')) -> (encode ov m = encode ov m' <-> m = m')) /\
  (forall m m' pid mid pid' mid', fits m -> fits m' -> encode ov m = Ok (pid, mid) -> encode ov m' = Ok (pid', mid') ->
    (agree FPosition m m' -> agree FOnAction m m' -> pid = pid') /\
    (changes_only [FPosition] m m' <-> mid = mid')) /\
  (forall m pid mid pid' mid', fits m -> encode ov m = Ok (pid, mid) -> encode ov (turned m) = Ok (pid', mid') -> pid' = pid).
Proof. exact ids_tell. Qed.
Print Assumptions C124_ids.
Example C124_case : forall ov, fits opening_31 /\ on_action (turned opening_31) = 0 /\
  encode ov opening_31 = Ok (L "4HPwATDgc/ABMA", L "cIksAgAAAAAA") /\
  encode ov (set_position ([1; 0; 0; 0; 0; 5; 0; 3; 0; 0; 0; 0; 5; 0; 0; 0; 0; 0; 0; 0; 0; 0; 0; 1; 0], snd INITIAL_POSITION) opening_31)
    = Ok (L "wefgAyDgc/ABMA", L "cIksAgAAAAAA").
Proof. intros ov. split; [unfold fits, player; vm_compute; intuition congruence|]. vm_compute. auto. Qed.
