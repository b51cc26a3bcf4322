(* Properties C55, C56, C85 and C108: classifying the messages of a FIBS server *)
From Verif Require Import Py Re Dict CookieModel CookieSpec CookieProofs.
From Coq Require Import Permutation.

(* C55 *)
Theorem C55_protocol : forall order, any_order order -> forall ms,
  List.length (snd (session order ms)) = List.length ms /\
  cls (fst (session order ms)) = phase_after ms /\
  forall i m, nth_error ms i = Some m ->
    exists c, nth_error (snd (session order ms)) i = Some c /\ right_cookie (phase_after (firstn i ms)) m c.
Proof. exact protocol. Qed.
Print Assumptions C55_protocol.
Definition source_order (p : phase) : list string := keys (table p).
Example C55_case : any_order source_order /\
  (let ms := map L ["login: "; "1 bob 1008 host"; "3"; "Welcome"; "4"; "alice rolls 3 and 1"; "           Goodbye."; "login:"]%string in
   snd (session source_order ms) = ["FIBS_LoginPrompt"; "CLIP_WELCOME"; "CLIP_MOTD_BEGIN"; "FIBS_MOTD"; "CLIP_MOTD_END"; "FIBS_PlayerRolls";
     "FIBS_Goodbye"; "FIBS_LoginPrompt"]%string /\
   map (fun i => phase_after (firstn i ms)) [0; 2; 3; 4; 5; 6; 7]%nat = [Login; Login; Motd; Motd; Run; Run; Login]).
Proof. split; [intros p; apply Permutation_refl|split; [vm_cast_no_check (eq_refl ["FIBS_LoginPrompt"; "CLIP_WELCOME"; "CLIP_MOTD_BEGIN"; "FIBS_MOTD"; "CLIP_MOTD_END"; "FIBS_PlayerRolls"; "FIBS_Goodbye"; "FIBS_LoginPrompt"]%string)|vm_compute; reflexivity]]. Qed.

(* C56 *)
Theorem C56_history_refuted : forall order, any_order order -> exists ms ms' m,
  phase_after ms = Run /\ phase_after ms' = Run /\ cookie_after order ms m <> cookie_after order ms' m.
Proof. exact history_refuted. Qed.
Print Assumptions C56_history_refuted.

(* C56 *)
Theorem C56_history_partial : 
  (forall order order' ms ms' m, any_order order -> any_order order' -> phase_after ms = phase_after ms' ->
     cookie_after order ms m = cookie_after order' ms' m \/
     (phase_after ms = Run /\
      (In (cookie_after order ms m, cookie_after order' ms' m) overlaps \/
       In (cookie_after order' ms' m, cookie_after order ms m) overlaps) /\
      fits Run (cookie_after order ms m) m /\ fits Run (cookie_after order' ms' m) m)) /\
  (forall n n', In (n, n') overlaps -> exists m, fits Run n m /\ fits Run n' m).
Proof. exact history_partial. Qed.
Print Assumptions C56_history_partial.
(* a player called "bytes" logs in: what the client makes of it depends on what it saw before *)
Example C56_case :
  cookie_after source_order (map L ["3"; "4"]%string) (L "7 bytes ") = "FIBS_Stat"%string /\
  cookie_after source_order (map L ["3"; "4"; "7 alice "]%string) (L "7 bytes ") = "CLIP_LOGIN"%string /\
  In ("FIBS_Stat", "CLIP_LOGIN")%string overlaps.
Proof. split; [vm_cast_no_check (eq_refl "FIBS_Stat"%string)|]. split; [vm_cast_no_check (eq_refl "CLIP_LOGIN"%string)|]. vm_compute. tauto. Qed.

(* C85 *)
Theorem C85_announcements_refuted : forall order ms u t, any_order order -> phase_after ms = Run -> user_name u -> In t announcements ->
  cookie_after order ms (u ++ t) = "FIBS_Unknown"%string.
Proof. exact announced. Qed.
Print Assumptions C85_announcements_refuted.
Example C85_case : user_name (L "alice") /\ In (L " rejects. The game continues.") announcements /\
  patterns Run "FIBS_ResignRefused" <> [] /\
  cookie_after source_order (map L ["3"; "4"]%string) (L "alice rejects. The game continues.") = "FIBS_Unknown"%string.
Proof.
  split; [split; [discriminate|repeat constructor]|]. split; [vm_compute; tauto|]. split; [vm_compute; discriminate|vm_cast_no_check (eq_refl "FIBS_Unknown"%string)].
Qed.

(* C108 *)
Theorem C108_memory : forall order, any_order order -> forall ms, let s := fst (session order ms) in
  NoDup (last_match s) /\ incl (last_match s) (keys (table (phase_after ms))).
Proof. exact memory. Qed.
Print Assumptions C108_memory.
(* two logins: the second changes nothing *)
Example C108_case : last_match (fst (session source_order (map L ["3"; "4"; "7 alice "; "8 bob "; "7 carol "]%string))) = ["CLIP_LOGIN"; "CLIP_LOGOUT"; "CLIP_WHO_INFO"]%string.
Proof. vm_cast_no_check (eq_refl ["CLIP_LOGIN"; "CLIP_LOGOUT"; "CLIP_WHO_INFO"]%string). Qed.
