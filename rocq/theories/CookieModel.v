(* Model of the message classifier of bglib/protocol/fibs.py (CookieMonster and its states).
   The order in which Python iterates over a class dictionary is not fixed by the
   language: it is the parameter [order].  Attributes that are not cookies are
   left out of the tables, candidates skips them (fibs.py:46).
   State.regexp_cache is shared between the states by name (fibs.py:47-49); the only
   name defined in two states has the same patterns in both (CookieProofs.shared_same),
   so the model reads the patterns from the table of the state. *)
From Verif Require Import Py Re Dict.

(* ---- the patterns: re.compile for the syntax that occurs ----
   Literal characters, escaped characters, character classes with ranges and
   negation, the dot, the postfix operators, a leading ^ (which says nothing, match starts at the
   start anyway) and a final $.  Brackets occur only unquantified and without
   alternatives ("Time (UTC)") and are skipped. *)
Record pat := mkpat { body : re; at_end : bool }.
(* the inside of a class up to the closing bracket *)
Fixpoint class_items (s : str) : option (list (ascii * ascii) * str) :=
  let more a b s := match class_items s with Some (l, t) => Some ((a, b) :: l, t) | None => None end in
  match s with
  | [] => None
  | "]"%char :: s' => Some ([], s')
  | "\"%char :: c :: s' => more c c s'
  | a :: ((d :: b :: s'') as s') => if Ascii.eqb d "-" && negb (Ascii.eqb b "]") then more a b s'' else more a a s'
  | a :: s' => more a a s'
  end.
(* one character or class, and the rest of the pattern *)
Definition atom (s : str) : option (re * str) :=
  match s with
  | [] => None
  | "\"%char :: c :: s' => Some (char c, s')
  | "["%char :: "^"%char :: s' => match class_items s' with Some (l, t) => Some (Chr (Ranges true l), t) | None => None end
  | "["%char :: s' => match class_items s' with Some (l, t) => Some (Chr (Ranges false l), t) | None => None end
  | "."%char :: s' => Some (any, s')
  | c :: s' => Some (char c, s')
  end.
Fixpoint pieces (fuel : nat) (s : str) : option pat :=
  match fuel with
  | 0%nat => None
  | S fuel =>
      match s with
      | [] => Some (mkpat Eps false)
      | ["$"%char] => Some (mkpat Eps true)
      | "("%char :: s' | ")"%char :: s' => pieces fuel s'
      | _ =>
          match atom s with
          | None => None
          | Some (r, t) =>
              let '(r, t) := match t with
                             | "+"%char :: t' => (plus r, t')
                             | "*"%char :: t' => (Star r, t')
                             | "?"%char :: t' => (opt r, t')
                             | _ => (r, t)
                             end in
              match pieces fuel t with Some q => Some (mkpat (Cat r (body q)) (at_end q)) | None => None end
          end
      end
  end.
Definition compile (s : str) : option pat :=
  let s := match s with "^"%char :: s' => s' | _ => s end in pieces (S (List.length s)) s.
(* regexp.match(message) *)
Definition matches (p : pat) (message : str) : bool :=
  if at_end p then ends (body p) message else starts (body p) message.

(* ---- the tables, in the order of the source; a later definition of a name
   replaces the earlier one ---- *)
(* fibs.py:94-441 *)
Definition run_defs : list (string * list string) := [
  ("FIBS_Board", ["^board:[a-zA-Z_<>]+:[a-zA-Z_<>]+:[0-9:\-]+$"]);
  ("FIBS_BAD_Board", ["^board:"]);
  ("FIBS_YouRoll", ["^You roll [1-6] and [1-6]"]);
  ("FIBS_PlayerRolls", ["^[a-zA-Z_<>]+ rolls [1-6] and [1-6]"]);
  ("FIBS_RollOrDouble", ["^It's your turn to roll or double\."; "^It's your turn\. Please roll or double"]);
  ("FIBS_AcceptRejectDouble", ["doubles\. Type 'accept' or 'reject'\."]);
  ("FIBS_Doubles", ["^[a-zA-Z_<>]+ doubles\."]);
  ("FIBS_PleaseMove", ["^Please move [1-4] pieces?\."]);
  ("FIBS_PlayerMoves", ["^[a-zA-Z_<>]+ moves"]);
  ("FIBS_BearingOff", ["^Bearing off:"]);
  ("FIBS_YouReject", ["^You reject\. The game continues\."]);
  ("FIBS_YouStopWatching", ["You're not watching anymore\."]);
  ("FIBS_OpponentLogsOut", ["The game was saved\."]);
  ("FIBS_OnlyPossibleMove", ["^The only possible move is"]);
  ("FIBS_FirstRoll", ["[a-zA-Z_<>]+ rolled [1-6].+rolled [1-6]"]);
  ("FIBS_MakesFirstMove", [" makes the first move\."]);
  ("FIBS_YouDouble", ["^You double\. Please wait for "]);
  ("FIBS_PlayerWantsToResign", ["^[a-zA-Z_<>]+ wants to resign\. You will win [0-9]+ points?\. Type 'accept' or 'reject'\."]);
  ("FIBS_WatchResign", ["^[a-zA-Z_<>]+ wants to resign\. "]);
  ("FIBS_YouResign", ["^You want to resign\."]);
  ("FIBS_ResumeMatchAck5", ["^You are now playing with [a-zA-Z_<>]+\. Your running match was loaded\."]);
  ("FIBS_JoinNextGame", ["^Type 'join' if you want to play the next game, type 'leave' if you don't\."]);
  ("FIBS_NewMatchRequest", ["^[a-zA-Z_<>]+ wants to play a [0-9]+ point match with you\."]);
  ("FIBS_WARNINGSavedMatch", ["^WARNING: Don't accept if you want to continue"]);
  ("FIBS_ResignRefused", ["rejects\. The game continues\."]);
  ("FIBS_MatchLength", ["^match length:"]);
  ("FIBS_TypeJoin", ["^Type 'join [a-zA-Z_<>]+' to accept\."]);
  ("FIBS_YouAreWatching", ["^You're now watching "]);
  ("FIBS_YouStopWatching", ["^You stop watching "]);
  ("FIBS_PlayerStartsWatching", ["[a-zA-Z_<>]+ starts watching [a-zA-Z_<>]+\."; "[a-zA-Z_<>]+ is watching you\."]);
  ("FIBS_PlayerStopsWatching", ["[a-zA-Z_<>]+ stops watching [a-zA-Z_<>]+\."]);
  ("FIBS_PlayerIsWatching", ["[a-zA-Z_<>]+ is watching "]);
  ("FIBS_ResignWins", ["^[a-zA-Z_<>]+ gives up\. [a-zA-Z_<>]+ wins [0-9]+ points?\."]);
  ("FIBS_ResignYouWin", ["^[a-zA-Z_<>]+ gives up\. You win [0-9]+ points?\."]);
  ("FIBS_YouAcceptAndWin", ["^You accept and win"]);
  ("FIBS_AcceptWins", ["^[a-zA-Z_<>]+ accepts and wins [0-9]+ point"]);
  ("FIBS_PlayersStartingMatch", ["^[a-zA-Z_<>]+ and [a-zA-Z_<>]+ start a [0-9]+ point match"]);
  ("FIBS_StartingNewGame", ["^Starting a new game with "]);
  ("FIBS_YouGiveUp", ["^You give up\. "]);
  ("FIBS_YouWinMatch", ["^You win the [0-9]+ point match"]);
  ("FIBS_PlayerWinsMatch", ["^[a-zA-Z_<>]+ wins the [0-9]+ point match"]);
  ("FIBS_ResumingUnlimitedMatch", ["^[a-zA-Z_<>]+ and [a-zA-Z_<>]+ are resuming their unlimited match\."]);
  ("FIBS_ResumingLimitedMatch", ["^[a-zA-Z_<>]+ and [a-zA-Z_<>]+ are resuming their [0-9]+-point match\."]);
  ("FIBS_MatchResult", ["^[a-zA-Z_<>]+ wins a [0-9]+ point match against "]);
  ("FIBS_PlayerWantsToResign", ["wants to resign\."]);
  ("FIBS_BAD_AcceptDouble", ["^[a-zA-Z_<>]+ accepts? the double\. The cube shows [0-9]+\..+"]);
  ("FIBS_YouAcceptDouble", ["^You accept the double\. The cube shows"]);
  ("FIBS_PlayerAcceptsDouble", ["^[a-zA-Z_<>]+ accepts the double\. The cube shows "; "^[a-zA-Z_<>]+ accepts the double\."; "accepts the double\."]);
  ("FIBS_ResumeMatchRequest", ["^[a-zA-Z_<>]+ wants to resume a saved match with you\."]);
  ("FIBS_ResumeMatchAck0", ["has joined you\. Your running match was loaded"]);
  ("FIBS_YouWinGame", ["^You win the game and get"]);
  ("FIBS_UnlimitedInvite", ["^[a-zA-Z_<>]+ wants to play an unlimted match with you\."]);
  ("FIBS_PlayerWinsGame", ["^[a-zA-Z_<>]+ wins the game and gets [0-9]+ points?. Sorry."; "^[a-zA-Z_<>]+ wins the game and gets [0-9]+ points?."]);
  ("FIBS_WatchGameWins", ["wins the game and gets"]);
  ("FIBS_PlayersStartingUnlimitedMatch", ["start an unlimited match\."]);
  ("FIBS_ReportLimitedMatch", ["^[a-zA-Z_<>]+ +- +[a-zA-Z_<>]+ .+ point match"]);
  ("FIBS_ReportUnlimitedMatch", ["^[a-zA-Z_<>]+ +- +[a-zA-Z_<>]+ \(unlimited"]);
  ("FIBS_ShowMovesStart", ["^[a-zA-Z_<>]+ is X - [a-zA-Z_<>]+ is O"]);
  ("FIBS_ShowMovesRoll", ["^[XO]: \([1-6]"]);
  ("FIBS_ShowMovesWins", ["^[XO]: wins"]);
  ("FIBS_ShowMovesDoubles", ["^[XO]: doubles"]);
  ("FIBS_ShowMovesAccepts", ["^[XO]: accepts"]);
  ("FIBS_ShowMovesRejects", ["^[XO]: rejects"]);
  ("FIBS_ShowMovesOther", ["^[XO]:"]);
  ("FIBS_ScoreUpdate", ["^score in [0-9]+ point match:"]);
  ("FIBS_MatchStart", ["^Score is [0-9]+-[0-9]+ in a [0-9]+ point match\."]);
  ("FIBS_Settings", ["^Settings of variables:"]);
  ("FIBS_Turn", ["^turn:"]);
  ("FIBS_Boardstyle", ["^boardstyle:"]);
  ("FIBS_Linelength", ["^linelength:"]);
  ("FIBS_Pagelength", ["^pagelength:"]);
  ("FIBS_Redoubles", ["^redoubles:"]);
  ("FIBS_Sortwho", ["^sortwho:"]);
  ("FIBS_Timezone", ["^timezone:"]);
  ("FIBS_CantMove", ["^[a-zA-Z_<>]+ can't move"]);
  ("FIBS_ListOfGames", ["^List of games:"]);
  ("FIBS_PlayerInfoStart", ["^Information about"]);
  ("FIBS_EmailAddress", ["^  Email address:"]);
  ("FIBS_NoEmail", ["^  No email address\."]);
  ("FIBS_WavesAgain", ["^[a-zA-Z_<>]+ waves goodbye again\."]);
  ("FIBS_Waves", ["waves goodbye"; "^You wave goodbye\."]);
  ("FIBS_WavesAgain", ["^You wave goodbye again and log out\."]);
  ("FIBS_NoSavedGames", ["^no saved games\."]);
  ("FIBS_TypeBack", ["^You're away\. Please type 'back'"]);
  ("FIBS_SavedMatch", ["^  [a-zA-Z_<>]+ +[0-9]+ +[0-9]+ +- +"]);
  ("FIBS_SavedMatchPlaying", ["^ \*[a-zA-Z_<>]+ +[0-9]+ +[0-9]+ +- +"]);
  ("FIBS_PlayerIsWaitingForYou", ["^[a-zA-Z_<>]+ is waiting for you to log in\."]);
  ("FIBS_IsAway", ["^[a-zA-Z_<>]+ is away: "]);
  ("FIBS_AllowpipTrue", ["^allowpip +YES"]);
  ("FIBS_AllowpipFalse", ["^allowpip +NO"]);
  ("FIBS_AutoboardTrue", ["^autoboard +YES"]);
  ("FIBS_AutoboardFalse", ["^autoboard +NO"]);
  ("FIBS_AutodoubleTrue", ["^autodouble +YES"]);
  ("FIBS_AutodoubleFalse", ["^autodouble +NO"]);
  ("FIBS_AutomoveTrue", ["^automove +YES"]);
  ("FIBS_AutomoveFalse", ["^automove +NO"]);
  ("FIBS_BellTrue", ["^bell +YES"]);
  ("FIBS_BellFalse", ["^bell +NO"]);
  ("FIBS_CrawfordTrue", ["^crawford +YES"]);
  ("FIBS_CrawfordFalse", ["^crawford +NO"]);
  ("FIBS_DoubleTrue", ["^double +YES"]);
  ("FIBS_DoubleFalse", ["^double +NO"]);
  ("FIBS_MoreboardsTrue", ["^moreboards +YES"]);
  ("FIBS_MoreboardsFalse", ["^moreboards +NO"]);
  ("FIBS_MovesTrue", ["^moves +YES"]);
  ("FIBS_MovesFalse", ["^moves +NO"]);
  ("FIBS_GreedyTrue", ["^greedy +YES"]);
  ("FIBS_GreedyFalse", ["^greedy +NO"]);
  ("FIBS_NotifyTrue", ["^notify +YES"]);
  ("FIBS_NotifyFalse", ["^notify +NO"]);
  ("FIBS_RatingsTrue", ["^ratings +YES"]);
  ("FIBS_RatingsFalse", ["^ratings +NO"]);
  ("FIBS_ReadyTrue", ["^ready +YES"]);
  ("FIBS_ReadyFalse", ["^ready +NO"]);
  ("FIBS_ReportTrue", ["^report +YES"]);
  ("FIBS_ReportFalse", ["^report +NO"]);
  ("FIBS_SilentTrue", ["^silent +YES"]);
  ("FIBS_SilentFalse", ["^silent +NO"]);
  ("FIBS_TelnetTrue", ["^telnet +YES"]);
  ("FIBS_TelnetFalse", ["^telnet +NO"]);
  ("FIBS_WrapTrue", ["^wrap +YES"]);
  ("FIBS_WrapFalse", ["^wrap +NO"]);
  ("FIBS_Junk", ["^Closed old connection with user"]);
  ("FIBS_Done", ["^Done\."]);
  ("FIBS_YourTurnToMove", ["^It's your turn to move\."]);
  ("FIBS_SavedMatchesHeader", ["^  opponent          matchlength   score \(your points first\)"]);
  ("FIBS_MessagesForYou", ["^There are messages for you:"]);
  ("FIBS_RedoublesSetTo", ["^Value of 'redoubles' set to [0-9]+\."]);
  ("FIBS_DoublingCubeNow", ["^The number on the doubling cube is now [0-9]+"]);
  ("FIBS_FailedLogin", ["^> [0-9]+"]);
  ("FIBS_Average", ["^Time (UTC)  average min max"]);
  ("FIBS_DiceTest", ["^[nST]: "]);
  ("FIBS_LastLogout", ["^  Last logout:"]);
  ("FIBS_RatingCalcStart", ["^rating calculation:"]);
  ("FIBS_RatingCalcInfo", ["^Probability that underdog wins:"; "is 1-Pu if underdog wins"; "^Experience: "; "^K=max\(1"; "^rating difference"; "^change for"; "^match length  "]);
  ("FIBS_WatchingHeader", ["^Watching players:"]);
  ("FIBS_SettingsHeader", ["^The current settings are:"]);
  ("FIBS_AwayListHeader", ["^The following users are away:"]);
  ("FIBS_RatingExperience", ["^  Rating: +[0-9]+\."]);
  ("FIBS_NotLoggedIn", ["^  Not logged in right now\."]);
  ("FIBS_IsPlayingWith", ["is playing with"]);
  ("FIBS_SavedScoreHeader", ["^opponent +matchlength"]);
  ("FIBS_StillLoggedIn", ["^  Still logged in\."]);
  ("FIBS_NoOneIsAway", ["^None of the users is away\."]);
  ("FIBS_PlayerListHeader", ["^No  S  username        rating  exp login    idle  from"]);
  ("FIBS_RatingsHeader", ["^ rank name            rating    Experience"]);
  ("FIBS_ClearScreen", ["^.\[;H.\[2J"]);
  ("FIBS_Timeout", ["^Connection timed out\."]);
  ("FIBS_Goodbye", ["           Goodbye\."]);
  ("FIBS_LastLogin", ["^  Last login:"]);
  ("FIBS_NoInfo", ["^No information found on user"]);
  ("CLIP_WHO_INFO", ["^5 [^ ]+ - - [01]"; "^5 [^ ]+ [^ ]+ - [01]"; "^5 [^ ]+ - [^ ]+ [01]"]);
  ("FIBS_Average", ["^[0-9][0-9]:[0-9][0-9]-"]);
  ("FIBS_DiceTest", ["^[1-6]-1 [0-9]"; "^[1-6]: [0-9]"]);
  ("FIBS_Stat", ["^[0-9]+ bytes"; "^[0-9]+ accounts"; "^[0-9]+ ratings saved. reset log"; "^[0-9]+ registered users."; "^[0-9]+\([0-9]+\) saved games check by cron"]);
  ("CLIP_WHO_END", ["^6$"]);
  ("CLIP_SHOUTS", ["^13 [a-zA-Z_<>]+ "]);
  ("CLIP_SAYS", ["^12 [a-zA-Z_<>]+ "]);
  ("CLIP_WHISPERS", ["^14 [a-zA-Z_<>]+ "]);
  ("CLIP_KIBITZES", ["^15 [a-zA-Z_<>]+ "]);
  ("CLIP_YOU_SAY", ["^16 [a-zA-Z_<>]+ "]);
  ("CLIP_YOU_SHOUT", ["^17 "]);
  ("CLIP_YOU_WHISPER", ["^18 "]);
  ("CLIP_YOU_KIBITZ", ["^19 "]);
  ("CLIP_LOGIN", ["^7 [a-zA-Z_<>]+ "]);
  ("CLIP_LOGOUT", ["^8 [a-zA-Z_<>]+ "]);
  ("CLIP_MESSAGE", ["^9 [a-zA-Z_<>]+ [0-9]+ "]);
  ("CLIP_MESSAGE_DELIVERED", ["^10 [a-zA-Z_<>]+$"]);
  ("CLIP_MESSAGE_SAVED", ["^11 [a-zA-Z_<>]+$"]);
  ("FIBS_Username", ["^\*\* User"]);
  ("FIBS_Junk", ["^\*\* You tell "]);
  ("FIBS_YouGag", ["^\*\* You gag"]);
  ("FIBS_YouUngag", ["^\*\* You ungag"]);
  ("FIBS_YouBlind", ["^\*\* You blind"]);
  ("FIBS_YouUnblind", ["^\*\* You unblind"]);
  ("FIBS_UseToggleReady", ["^\*\* Use 'toggle ready' first"]);
  ("FIBS_NewMatchAck9", ["^\*\* You are now playing an unlimited match with "]);
  ("FIBS_NewMatchAck10", ["^\*\* You are now playing a [0-9]+ point match with "]);
  ("FIBS_NewMatchAck2", ["^\*\* Player [a-zA-Z_<>]+ has joined you for a"]);
  ("FIBS_YouTerminated", ["^\*\* You terminated the game"]);
  ("FIBS_OpponentLeftGame", ["^\*\* Player [a-zA-Z_<>]+ has left the game. The game was saved\."]);
  ("FIBS_PlayerLeftGame", ["has left the game\."]);
  ("FIBS_YouInvited", ["^\*\* You invited"]);
  ("FIBS_YourLastLogin", ["^\*\* Last login:"]);
  ("FIBS_NoOne", ["^\*\* There is no one called"]);
  ("FIBS_AllowpipFalse", ["^\*\* You don't allow the use of the server's 'pip' command\."]);
  ("FIBS_AllowpipTrue", ["^\*\* You allow the use the server's 'pip' command\."]);
  ("FIBS_AutoboardFalse", ["^\*\* The board won't be refreshed"]);
  ("FIBS_AutoboardTrue", ["^\*\* The board will be refreshed"]);
  ("FIBS_AutodoubleTrue", ["^\*\* You agree that doublets"]);
  ("FIBS_AutodoubleFalse", ["^\*\* You don't agree that doublets"]);
  ("FIBS_AutomoveFalse", ["^\*\* Forced moves won't"]);
  ("FIBS_AutomoveTrue", ["^\*\* Forced moves will"]);
  ("FIBS_BellFalse", ["^\*\* Your terminal won't ring"]);
  ("FIBS_BellTrue", ["^\*\* Your terminal will ring"]);
  ("FIBS_CrawfordFalse", ["^\*\* You would like to play without using the Crawford rule\."]);
  ("FIBS_CrawfordTrue", ["^\*\* You insist on playing with the Crawford rule\."]);
  ("FIBS_DoubleFalse", ["^\*\* You won't be asked if you want to double\."]);
  ("FIBS_DoubleTrue", ["^\*\* You will be asked if you want to double\."]);
  ("FIBS_GreedyTrue", ["^\*\* Will use automatic greedy bearoffs\."]);
  ("FIBS_GreedyFalse", ["^\*\* Won't use automatic greedy bearoffs\."]);
  ("FIBS_MoreboardsTrue", ["^\*\* Will send rawboards after rolling\."]);
  ("FIBS_MoreboardsFalse", ["^\*\* Won't send rawboards after rolling\."]);
  ("FIBS_MovesTrue", ["^\*\* You want a list of moves after this game\."]);
  ("FIBS_MovesFalse", ["^\*\* You won't see a list of moves after this game\."]);
  ("FIBS_NotifyFalse", ["^\*\* You won't be notified"]);
  ("FIBS_NotifyTrue", ["^\*\* You'll be notified"]);
  ("FIBS_RatingsTrue", ["^\*\* You'll see how the rating changes are calculated\."]);
  ("FIBS_RatingsFalse", ["^\*\* You won't see how the rating changes are calculated\."]);
  ("FIBS_ReadyTrue", ["^\*\* You're now ready to invite or join someone\."]);
  ("FIBS_ReadyFalse", ["^\*\* You're now refusing to play with someone\."]);
  ("FIBS_ReportFalse", ["^\*\* You won't be informed"]);
  ("FIBS_ReportTrue", ["^\*\* You will be informed"]);
  ("FIBS_SilentTrue", ["^\*\* You won't hear what other players shout\."]);
  ("FIBS_SilentFalse", ["^\*\* You will hear what other players shout\."]);
  ("FIBS_TelnetFalse", ["^\*\* You use a client program"]);
  ("FIBS_TelnetTrue", ["^\*\* You use telnet"]);
  ("FIBS_WrapFalse", ["^\*\* The server will wrap"]);
  ("FIBS_WrapTrue", ["^\*\* Your terminal knows how to wrap"]);
  ("FIBS_PlayerRefusingGames", ["^\*\* [a-zA-Z_<>]+ is refusing games\."]);
  ("FIBS_NotWatching", ["^\*\* You're not watching\."]);
  ("FIBS_NotWatchingPlaying", ["^\*\* You're not watching or playing\."]);
  ("FIBS_NotPlaying", ["^\*\* You're not playing\."]);
  ("FIBS_NoUser", ["^\*\* There is no one called "]);
  ("FIBS_AlreadyPlaying", ["is already playing with"]);
  ("FIBS_DidntInvite", ["^\*\* [a-zA-Z_<>]+ didn't invite you."]);
  ("FIBS_BadMove", ["^\*\* You can't remove this piece"]);
  ("FIBS_CantMoveFirstMove", ["^\*\* You can't move "]);
  ("FIBS_CantShout", ["^\*\* Please type 'toggle silent' again before you shout\."]);
  ("FIBS_MustMove", ["^\*\* You must give [1-4] moves"]);
  ("FIBS_MustComeIn", ["^\*\* You have to remove pieces from the bar in your first move\."]);
  ("FIBS_UsersHeardYou", ["^\*\* [0-9]+ users? heard you\."]);
  ("FIBS_Junk", ["^\*\* Please wait for [a-zA-Z_<>]+ to join too\."]);
  ("FIBS_SavedMatchReady", ["^\*\*[a-zA-Z_<>]+ +[0-9]+ +[0-9]+ +- +[0-9]+"]);
  ("FIBS_NotYourTurnToRoll", ["^\*\* It's not your turn to roll the dice\."]);
  ("FIBS_NotYourTurnToMove", ["^\*\* It's not your turn to move\."]);
  ("FIBS_YouStopWatching", ["^\*\* You stop watching"]);
  ("FIBS_UnknownCommand", ["^\*\* Unknown command:"]);
  ("FIBS_CantWatch", ["^\*\* You can't watch another game while you're playing\."]);
  ("FIBS_CantInviteSelf", ["^\*\* You can't invite yourself\."]);
  ("FIBS_DontKnowUser", ["^\*\* Don't know user"]);
  ("FIBS_MessageUsage", ["^\*\* usage: message <user> <text>"]);
  ("FIBS_PlayerNotPlaying", ["^\*\* [a-zA-Z_<>]+ is not playing\."]);
  ("FIBS_CantTalk", ["^\*\* You can't talk if you won't listen\."]);
  ("FIBS_WontListen", ["^\*\* [a-zA-Z_<>]+ won't listen to you\."]);
  ("FIBS_Why", ["Why would you want to do that"]);
  ("FIBS_Ratings", ["^\* *[0-9]+ +[a-zA-Z_<>]+ +[0-9]+\.[0-9]+ +[0-9]+"]);
  ("FIBS_NoSavedMatch", ["^\*\* There's no saved match with "]);
  ("FIBS_WARNINGSavedMatch", ["^\*\* WARNING: Don't accept if you want to continue"]);
  ("FIBS_CantGagYourself", ["^\*\* You talk too much, don't you\?"]);
  ("FIBS_CantBlindYourself", ["^\*\* You can't read this message now, can you\?"])
]%string.

(* fibs.py:445-450 *)
Definition login_defs : list (string * list string) := [
  ("FIBS_LoginPrompt", ["^login:"]);
  ("CLIP_WELCOME", ["^1 [a-zA-Z_<>]+ [0-9]+ "]);
  ("CLIP_OWN_INFO", ["^2 [a-zA-Z_<>]+ [01] [01]"]);
  ("CLIP_MOTD_BEGIN", ["^3$"]);
  ("FIBS_FailedLogin", ["^> [0-9]+"]);
  ("FIBS_PreLogin", ["^[^123>l]"])
]%string.

(* fibs.py:462-463 *)
Definition motd_defs : list (string * list string) := [
  ("CLIP_MOTD_END", ["^4$"]);
  ("FIBS_MOTD", ["^[^4]"])
]%string.

Definition compile_all (ps : list string) : list pat :=
  flat_map (fun p => match compile (L p) with Some q => [q] | None => [] end) ps.
Definition class_dict (defs : list (string * list string)) : list (string * list pat) :=
  fold_left (fun d '(n, ps) => dset String.eqb d n (compile_all ps)) defs [].

Inductive phase := Login | Motd | Run.
(* evaluated once, since they are used for every message *)
Definition login_table : list (string * list pat) := Eval vm_compute in class_dict login_defs.
Definition motd_table : list (string * list pat) := Eval vm_compute in class_dict motd_defs.
Definition run_table : list (string * list pat) := Eval vm_compute in class_dict run_defs.
Definition table (p : phase) : list (string * list pat) :=
  match p with Login => login_table | Motd => motd_table | Run => run_table end.
Definition patterns (p : phase) (name : string) : list pat :=
  match dget String.eqb (table p) name with Some ps => ps | None => [] end.

(* a State object: its class and last_match *)
Record cstate := mkcstate { cls : phase; last_match : list string }.
(* the constructors, fibs.py:76-77, 452-453, 464-465 *)
Definition new_state (p : phase) : cstate :=
  mkcstate p [match p with Login => "CLIP_WELCOME" | Motd => "FIBS_MOTD" | Run => "CLIP_WHO_INFO" end]%string.
(* fibs.py:66-71; list.remove takes out the first occurrence *)
Fixpoint remove_first (n : string) (l : list string) : list string :=
  match l with [] => [] | x :: l' => if String.eqb x n then l' else x :: remove_first n l' end.
Definition bring_to_top (s : cstate) (n : string) : cstate := mkcstate (cls s) (n :: remove_first n (last_match s)).
(* fibs.py:51-52, 458-459, 470-471, 92 *)
Definition default (p : phase) : string :=
  match p with Login => "FIBS_PreLogin" | Motd => "FIBS_MOTD" | Run => "FIBS_Unknown" end%string.
Section Order.
Variable order : phase -> list string.
(* fibs.py:37-50 *)
Definition candidates (s : cstate) : list (string * pat) :=
  flat_map (fun n => map (fun r => (n, r)) (patterns (cls s) n)) (last_match s ++ order (cls s)).
(* State.make_cookie fibs.py:56-64, RunState.make_cookie fibs.py:82-92 *)
Definition state_cookie (s : cstate) (message : str) : cstate * string :=
  match cls s, message with
  | Run, [] => (s, "FIBS_Empty"%string)
  | _, _ =>
      match find (fun '(_, r) => matches r message) (candidates s) with
      | Some (n, _) => (bring_to_top s n, n)
      | None => (s, default (cls s))
      end
  end.
(* next_state, fibs.py:78-81, 454-457, 466-469 *)
Definition next_state (s : cstate) (name : string) : cstate :=
  match cls s with
  | Run => if String.eqb name "FIBS_Goodbye" then new_state Login else s
  | Login => if String.eqb name "CLIP_MOTD_BEGIN" then new_state Motd else s
  | Motd => if String.eqb name "CLIP_MOTD_END" then new_state Run else s
  end.
(* CookieMonster, fibs.py:22-28 *)
Definition make_cookie (s : cstate) (message : str) : cstate * string :=
  let (s, cookie) := state_cookie s message in (next_state s cookie, cookie).
Definition new_monster : cstate := new_state Login.
Fixpoint make_cookies (s : cstate) (messages : list str) : cstate * list string :=
  match messages with
  | [] => (s, [])
  | m :: ms => let (s, c) := make_cookie s m in let (s, cs) := make_cookies s ms in (s, c :: cs)
  end.
End Order.
