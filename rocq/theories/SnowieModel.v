(* Model of bglib/record/snowietxt.py.
   tonic.lineparser.LineParser is not in the repository.  Assumed: parse(line)
   matches the alternatives of the pattern in order at the start of the line and
   calls the handler named after the first that matches; a line of results has no
   handler and is skipped (the record files used by the tests contain such
   lines).  The sha object is modelled by the text fed to it. *)
From Verif Require Import Py Re UtilModel.

(* the alternatives of LineValidator._first and _last, snowietxt.py:50-82 *)
Inductive kind := Empty | MatchLength | GameHeader | PlayerHeader | Moves | Results | Bad.
Definition digits : re := plus (Chr digit_set).
Definition blanks : re := Star (char " ").
(* snowietxt.py:53 *)
Definition re_matchlength : re := cats [char " "; digits; lit (L " point match")].
(* snowietxt.py:55 *)
Definition re_gameheader : re := cats [blanks; lit (L "Game "); digits].
(* snowietxt.py:57-61 *)
Definition name_set : cset := Ranges true [(",", ","); (":", ":")]%char.
Definition re_player : re := cats [plus (Chr name_set); opt (cats [char ","; digits]); lit (L " : "); digits].
Definition re_playerheader : re := cats [char " "; re_player; blanks; re_player].
(* snowietxt.py:64-80: what follows the closing bracket and a blank is optional *)
Definition re_moves : re := cats [blanks; digits; char ")"; plus (char " ")].
(* snowietxt.py:82 *)
Definition re_results : re := cats [blanks; lit (L "Wins "); digits; lit (L " point")].
Definition kind_of (line : str) : kind :=
  if forallb space line then Empty
  else if starts re_matchlength line then MatchLength
  else if starts re_gameheader line then GameHeader
  else if starts re_playerheader line then PlayerHeader
  else if starts re_moves line then Moves
  else if starts re_results line then Results
  else Bad.
(* the group nthmove of a line of moves *)
Fixpoint skip_blanks (s : str) : str := match s with c :: s' => if Ascii.eqb c " " then skip_blanks s' else s | [] => [] end.
Fixpoint take_digits (s : str) : str := match s with c :: s' => if digit c then c :: take_digits s' else [] | [] => [] end.
Definition nthmove (line : str) : res Z := py_int (take_digits (skip_blanks line)).

Definition kind_eqb (a b : kind) : bool :=
  match a, b with
  | Empty, Empty | MatchLength, MatchLength | GameHeader, GameHeader | PlayerHeader, PlayerHeader
  | Moves, Moves | Results, Results | Bad, Bad => true
  | _, _ => false
  end.
(* snowietxt.py:19-26; None is the state before the first line *)
Definition ACCEPTABLES (s : option kind) : res (list kind) :=
  match s with
  | None => Ok [MatchLength]
  | Some Empty => Ok [GameHeader]
  | Some MatchLength => Ok [GameHeader]
  | Some GameHeader => Ok [PlayerHeader]
  | Some PlayerHeader => Ok [Moves]
  | Some Moves => Ok [Moves; Empty; GameHeader]
  | _ => Exc KeyError
  end.
Definition is_kind (k : kind) (s : option kind) : bool := match s with Some k' => kind_eqb k k' | None => false end.

(* LineValidator, snowietxt.py:49-121 *)
Record linev := mklinev { state : option kind; count : Z }.
Definition new_linev : linev := mklinev None 0.
(* snowietxt.py:28-46, the decorator *)
Definition statevalidate (lv : linev) (next : kind) : linev * res unit :=
  match (if kind_eqb next Empty then Ok tt
         else let! acc := ACCEPTABLES (state lv) in
              if existsb (kind_eqb next) acc then Ok tt else Exc ValueError) with
  | Exc e => (lv, Exc e)
  | Ok _ =>
      let c := if is_kind Moves (state lv) && kind_eqb next Moves then count lv + 1 else 1 in
      (mklinev (Some next) c, Ok tt)
  end.
(* snowietxt.py:109-115 handle_moves, :117-120 handle_baddata, the other handlers only print *)
Definition parse (lv : linev) (line : str) : linev * res unit :=
  match kind_of line with
  | Bad => (lv, Exc ValueError)
  | Results => (lv, Ok tt)
  | Moves =>
      match statevalidate lv Moves with
      | (lv', Exc e) => (lv', Exc e)
      | (lv', Ok _) => (lv', let! n := nthmove line in if count lv' =? n then Ok tt else Exc ValueError)
      end
  | k => statevalidate lv k
  end.

(* Validator, snowietxt.py:124-146 *)
Record validator := mkvalidator { hashed : str; line_v : linev; size : Z; maxsize : Z }.
Definition new_validator (max_size : option Z) : validator :=
  mkvalidator [] new_linev 0 (match max_size with None => 0 | Some m => m end).
Definition feed (v : validator) (line : str) : validator * res unit :=
  let h := hashed v ++ line in
  match parse (line_v v) line with
  | (lv, Exc e) => (mkvalidator h lv (size v) (maxsize v), Exc e)
  | (lv, Ok _) => (mkvalidator h lv (size v + zlen line) (maxsize v), Ok tt)
  end.
Fixpoint validate (v : validator) (f : list str) : validator * res str :=
  match f with
  | [] => (v, Ok (hashed v))
  | line :: f' =>
      match feed v line with
      | (v', Exc e) => (v', Exc e)
      | (v', Ok _) =>
          if negb (maxsize v' =? 0) && (maxsize v' <=? size v') then (v', Exc ValueError)
          else validate v' f'
      end
  end.

(* str.splitlines(True) *)
Definition LF : ascii := ascii_of_nat 10.
Definition CR : ascii := ascii_of_nat 13.
Fixpoint splitlines (s : str) (cur : str) : list str :=
  match s with
  | [] => match cur with [] => [] | _ => [cur] end
  | c :: s' =>
      if Ascii.eqb c LF then (cur ++ [c]) :: splitlines s' []
      else if Ascii.eqb c CR then
        match s' with
        | d :: s'' => if Ascii.eqb d LF then (cur ++ [c; d]) :: splitlines s'' [] else (cur ++ [c]) :: splitlines s' []
        | [] => [cur ++ [c]]
        end
      else splitlines s' (cur ++ [c])
  end.
(* chop, snowietxt.py:148-168: what list(chop(txt)) is; match_length is None for the number 0 *)
Definition joined (match_length : option str) (xs : list str) : res str :=
  match match_length with
  | None => Exc TypeError
  | Some m => Ok (m ++ [LF] ++ List.concat xs)
  end.
Fixpoint chop_lines (lines : list str) (lv : linev) (match_length : option str) (xs : list str) (first : bool) : res (list str) :=
  match lines with
  | [] => let! c := joined match_length xs in Ok [c]
  | line :: rest =>
      let (lv, r) := parse lv line in
      let! _ := r in
      if is_kind MatchLength (state lv) then chop_lines rest lv (Some line) xs first
      else if is_kind Empty (state lv) then chop_lines rest lv match_length xs first
      else if is_kind GameHeader (state lv) then
        if first then chop_lines rest lv match_length (xs ++ [line]) false
        else
          let! c := joined match_length xs in
          let! cs := chop_lines rest lv match_length [line] first in
          Ok (c :: cs)
      else chop_lines rest lv match_length (xs ++ [line]) first
  end.
Definition chop (txt : str) : res (list str) := chop_lines (splitlines txt []) new_linev None [] true.
