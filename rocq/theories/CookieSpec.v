(* The session protocol of a FIBS server, for CookieProps. *)
From Verif Require Import Py Re Dict CookieModel.
From Coq Require Import Permutation.

(* Python lists the attributes of a class in some order, the same one every time *)
Definition any_order (order : phase -> list string) : Prop := forall p, Permutation (order p) (keys (table p)).

(* when a phase of a session ends *)
Definition motd_begins (m : str) : bool := str_eqb m (L "3") || str_eqb m (L "3" ++ [ascii_of_nat 10]).
Definition motd_ends (m : str) : bool := str_eqb m (L "4") || str_eqb m (L "4" ++ [ascii_of_nat 10]).
Definition says_goodbye (m : str) : bool := str_eqb (firstn 19 m) (L "           Goodbye.").
Definition next_phase (p : phase) (m : str) : phase :=
  match p with
  | Login => if motd_begins m then Motd else Login
  | Motd => if motd_ends m then Run else Motd
  | Run => if says_goodbye m then Login else Run
  end.
Definition phase_after (ms : list str) : phase := fold_left next_phase ms Login.

(* a message fits a cookie when one of the cookie's patterns matches it *)
Definition fits (p : phase) (name : string) (m : str) : Prop := exists r, In r (patterns p name) /\ matches r m = true.
Definition right_cookie (p : phase) (m : str) (c : string) : Prop :=
  if (match p, m with Run, [] => true | _, _ => false end) then c = "FIBS_Empty"%string
  else fits p c m \/ ((forall n, ~ fits p n m) /\ c = default p).

Definition session (order : phase -> list string) (ms : list str) : cstate * list string := make_cookies order new_monster ms.
Definition cookie_after (order : phase -> list string) (ms : list str) (m : str) : string :=
  snd (make_cookie order (fst (session order ms)) m).

(* the pairs of cookies of the run state that share a message *)
Definition overlaps : list (string * string) := [
  ("FIBS_Board", "FIBS_BAD_Board");
  ("FIBS_PlayerStartsWatching", "FIBS_PlayerIsWatching");
  ("FIBS_BAD_AcceptDouble", "FIBS_YouAcceptDouble");
  ("FIBS_BAD_AcceptDouble", "FIBS_PlayerAcceptsDouble");
  ("FIBS_ReportLimitedMatch", "FIBS_ReportUnlimitedMatch");
  ("FIBS_ShowMovesRoll", "FIBS_ShowMovesOther");
  ("FIBS_ShowMovesWins", "FIBS_ShowMovesOther");
  ("FIBS_ShowMovesDoubles", "FIBS_ShowMovesOther");
  ("FIBS_ShowMovesAccepts", "FIBS_ShowMovesOther");
  ("FIBS_ShowMovesRejects", "FIBS_ShowMovesOther");
  ("CLIP_WHO_INFO", "FIBS_Stat");
  ("FIBS_Stat", "CLIP_SHOUTS");
  ("FIBS_Stat", "CLIP_SAYS");
  ("FIBS_Stat", "CLIP_WHISPERS");
  ("FIBS_Stat", "CLIP_KIBITZES");
  ("FIBS_Stat", "CLIP_YOU_SAY");
  ("FIBS_Stat", "CLIP_YOU_SHOUT");
  ("FIBS_Stat", "CLIP_YOU_WHISPER");
  ("FIBS_Stat", "CLIP_YOU_KIBITZ");
  ("FIBS_Stat", "CLIP_LOGIN");
  ("FIBS_Stat", "CLIP_LOGOUT");
  ("FIBS_Stat", "CLIP_MESSAGE");
  ("FIBS_Stat", "CLIP_MESSAGE_DELIVERED");
  ("FIBS_Stat", "CLIP_MESSAGE_SAVED");
  ("FIBS_Username", "FIBS_PlayerRefusingGames");
  ("FIBS_Username", "FIBS_DidntInvite");
  ("FIBS_Username", "FIBS_PlayerNotPlaying");
  ("FIBS_Username", "FIBS_WontListen");
  ("FIBS_NoOne", "FIBS_NoUser")
]%string.

(* a user name as the patterns understand it *)
Definition user_chr (c : ascii) : bool := inset (Ranges false [("a", "z"); ("A", "Z"); ("_", "_"); ("<", "<"); (">", ">")]%char) c.
Definition user_name (u : str) : Prop := u <> [] /\ Forall (fun c => user_chr c = true) u.
(* what a server tells about another player, after the player's name *)
Definition announcements : list str := map L [
  " rejects. The game continues.";
  " makes the first move.";
  " logs out. The game was saved.";
  " drops connection. The game was saved.";
  " waves goodbye.";
  " has joined you. Your running match was loaded."]%string.
