(* What a Snowie text record is, for SnowieProps. *)
From Verif Require Import Py SnowieModel.

(* the last line that is not a line of results *)
Fixpoint last_line (l : list str) : option str :=
  match l with
  | [] => None
  | x :: l' => match last_line l' with
               | Some y => Some y
               | None => match kind_of x with Results => None | _ => Some x end
               end
  end.
(* may [line] follow, when [prev] is the last line before it that is not a line of results? *)
Definition follows (prev : option str) (line : str) : Prop :=
  match kind_of line with
  | Empty | Results => True
  | MatchLength => prev = None
  | GameHeader => exists p, prev = Some p /\ (kind_of p = MatchLength \/ kind_of p = Empty \/ kind_of p = Moves)
  | PlayerHeader => exists p, prev = Some p /\ kind_of p = GameHeader
  | Moves => exists p, prev = Some p /\
               ((kind_of p = PlayerHeader /\ nthmove line = Ok 1) \/
                (exists n, kind_of p = Moves /\ nthmove p = Ok n /\ nthmove line = Ok (n + 1)))
  | Bad => False
  end.
(* a record: every line may stand where it stands *)
Definition well_ordered (lines : list str) : Prop :=
  forall before line after, lines = before ++ line :: after -> follows (last_line before) line.

(* a whole file fed to a new validator *)
Definition validates (max : option Z) (lines : list str) : res str := snd (validate (new_validator max) lines).
Definition consumed (max : option Z) (lines : list str) : str := hashed (fst (validate (new_validator max) lines)).
Definition limit_ok (max : option Z) (lines : list str) : Prop :=
  match max with
  | None | Some 0 => True
  | Some m => lines = [] \/ zlen (List.concat lines) < m
  end.

(* what chop promises: each chunk is the match length and one game *)
Definition game (g : list str) : Prop :=
  exists h rest, g = h :: rest /\ kind_of h = GameHeader /\ Forall (fun l => kind_of l <> GameHeader) rest.
Definition not_empty (l : str) : bool := negb (kind_eqb (kind_of l) Empty).
(* lines of results stand after a line of moves, or after another one that does *)
Definition results_after_moves (lines : list str) : Prop :=
  forall before line after, lines = before ++ line :: after -> kind_of line = Results ->
    exists p, last_line before = Some p /\ kind_of p = Moves.

(* the layout of a record *)
Definition spaces (b : str) : Prop := Forall (fun c => c = " "%char) b.
Definition digit_chr (c : ascii) : Prop := In c (L "0123456789").
Definition numeral (ds : str) : Prop := ds <> [] /\ Forall digit_chr ds.
(* blank, colon, blank: what separates a name from a score *)
Definition has_score (line : str) : Prop := exists a b, line = a ++ L " : " ++ b.
