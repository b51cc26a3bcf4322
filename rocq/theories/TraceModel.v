(* Model of bglib/record/gnubg.py: the Tracer, which is meant to follow the
   records gnubg's Python interface gives for the actions of a game.
   - A record is a Python dict with text keys; of its values only texts are
     looked at.  Anything that is not a dict is [NotDict].
   - What [on_pickup_dice] and [pickup_dice] do after their assertion is not
     modelled (Unmodelled): it is never reached (C123). *)
From Verif Require Import Py UtilModel BoardModel GnuModel.

Inductive tval : Type := VText (s : str) | VThing (n : Z).
Inductive record : Type := ADict (d : list (str * tval)) | NotDict.
Fixpoint key_of (k : str) (d : list (str * tval)) : option tval :=
  match d with
  | [] => None
  | (k', v) :: d' => if str_eqb k k' then Some v else key_of k d'
  end.
Definition is_text (v : option tval) (s : str) : bool :=
  match v with Some (VText t) => str_eqb t s | _ => false end.

(* the two attributes, gnubg.py:16-25 *)
Record tracer := mkTracer { t_board : board; t_action : option (list (str * tval)) }.

Section Tonic.
Variable odd_binary : str -> res (list bool).

(* gnubg.py:15-25; [board] wins over [gnubgid]; BoardEditor(board) is a copy *)
Definition new_tracer (fuel : nat) (gnubgid : option str) (b : option board) : res tracer :=
  match b with
  | Some b => Ok (mkTracer b None)
  | None =>
      match gnubgid with
      | Some s =>
          match split_on ":"%char s with
          | [pid; mid] =>
              match decode odd_binary fuel default_board pid mid with
              | (e, Ok _) => Ok (mkTracer e None)
              | (_, Exc x) => Exc x
              end
          | _ => Exc ValueError
          end
      | None => Ok (mkTracer default_board None)
      end
  end.
End Tonic.

(* gnubg.py:31 *)
Definition actions : list str := [L "resign"; L "move"; L "take"; L "drop"; L "double"].
(* gnubg.py:27-39; nothing is stored *)
Definition set_action (t : tracer) (r : record) : res unit :=
  match t_action t with
  | Some _ => Exc AssertionError
  | None =>
      match r with
      | NotDict => Exc AssertionError
      | ADict d =>
          match key_of (L "action") d with
          | None => Exc AssertionError
          | Some a =>
              if negb (existsb (is_text (Some a)) actions) then Exc AssertionError else
              match key_of (L "player") d, key_of (L "board") d with
              | Some p, Some _ =>
                  if is_text (Some p) (L "X") then if on_action (t_board t) =? YOU then Ok tt else Exc AssertionError
                  else if is_text (Some p) (L "O") then if on_action (t_board t) =? HIM then Ok tt else Exc AssertionError
                  else Exc AssertionError
              | _, _ => Exc AssertionError
              end
          end
      end
  end.

(* assert self.action *)
Definition acting (t : tracer) : bool := match t_action t with Some (_ :: _) => true | _ => false end.
(* the methods without arguments, gnubg.py:41-81 *)
Inductive query : Type := QRollOrDouble | QOfferingDouble | QTakeOrPass | QMove | QPickupDice | QPickup.
(* the value of a call: None, or a board *)
Definition ask_tracer (t : tracer) (q : query) : res (option board) :=
  if negb (acting t) then Exc AssertionError else
  match q with
  | QRollOrDouble | QOfferingDouble | QTakeOrPass => Ok None
  | QMove => Ok (Some (t_board t))
  | QPickupDice | QPickup => Exc Unmodelled
  end.

Inductive tcall : Type := TSet (r : record) | TAsk (q : query).
(* a call as a program makes it: the tracer afterwards and what it answers *)
Definition call_tracer (c : tcall) (t : tracer) : tracer * res (option board) :=
  match c with
  | TSet r => (t, let! _ := set_action t r in Ok None)
  | TAsk q => (t, ask_tracer t q)
  end.
Fixpoint calls_tracer (cs : list tcall) (t : tracer) : tracer :=
  match cs with [] => t | c :: cs' => calls_tracer cs' (fst (call_tracer c t)) end.
