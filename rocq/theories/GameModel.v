(* A client that plays whole games through the library: the calls a board
   window makes on a BoardEditor and on the MoveFactory of the turn.  The parts
   are the functions of BoardModel.v and MoveModel.v; this file only says in
   which order they are called and what is kept between the calls. *)
From Verif Require Import Py UtilModel BoardModel MoveModel.

(* ---------- questions to the factory of the turn ---------- *)
(* one suggestion function of MoveFactory each: move.py:258, 306, 346, 427, 399 *)
Inductive ask : Type :=
| TFrom (s : Z) | TTo (t : Z) | TPath (s t : Z) | TPoint (t : Z) | TBack (s t : Z).

(* move.py:189-201; the suggested partial moves are new objects, handed to
   append one after the other; an exception stops the loop *)
Fixpoint give (f : factory) (pms : list pmove) : factory * res unit :=
  match pms with
  | [] => (f, Ok tt)
  | pm :: pms' =>
      match fac_append f (fresh (fmove f), pm) with
      | (f', Ok _) => give f' pms'
      | (f', Exc e) => (f', Exc e)
      end
  end.
(* a suggestion that was made is played, one that was not changes nothing more *)
Definition play_on (f : factory) (r : res (option (list pmove))) : factory * res unit :=
  match r with
  | Exc e => (f, Exc e)
  | Ok None => (f, Ok tt)
  | Ok (Some pms) => give f pms
  end.
(* the factory with the board a suggestion function left behind *)
Definition on_board (b : board) (f : factory) : factory := mkFac b (fmove f) (favail f).
(* move.py:258-446 with b, available and mv left at their defaults, then
   append or add (move.py:189-201) *)
Definition answer (q : ask) (f : factory) : factory * res unit :=
  match q with
  | TFrom s => play_on f (let! o := guess_single_from_source (fboard f) (favail f) s in
                          Ok (option_map (fun pm => [pm]) o))
  | TTo t => play_on f (let! o := snd (guess_single_from_dest (fboard f) (favail f) t) in
                        Ok (option_map (fun pm => [pm]) o))
  | TPath s t =>
      match guess_multiple_pms (fboard f) (favail f) s t with
      | (b, _, r) => play_on (on_board b f) (let! o := r in Ok (option_map (map snd) o))
      end
  | TPoint t => let (b, r) := making_point f t in play_on (on_board b f) r
  | TBack s t => let (b, r) := guess_partial_undoes f s t in
                 play_on (on_board b f) (let! o := r in Ok (option_map (map snd) o))
  end.
Fixpoint answers (qs : list ask) (f : factory) : factory :=
  match qs with [] => f | q :: qs' => answers qs' (fst (answer q f)) end.

(* ---------- the table ---------- *)
(* between turns there is a board; from the roll to the pick-up there is a
   factory, which holds that board *)
Inductive table : Type := Waiting (b : board) | Playing (f : factory).
Definition board_of (t : table) : board := match t with Waiting b => b | Playing f => fboard f end.

(* DRoll: editor.rolled = r and MoveFactory(editor), if the board says the
   player on action may roll (board.py:90-99); DAsk: a question and the move
   it suggests; DPickup: factory.pickupdice() (move.py:185-187); DTalk: a cube
   or resignation call on the editor (boardeditor.py:98-139) *)
Inductive deed : Type := DRoll (r : Z * Z) | DAsk (q : ask) | DPickup | DTalk (a : action).

(* an exception from one call does not stop the next *)
Definition deal (d : deed) (t : table) : table :=
  match d, t with
  | DRoll r, Waiting b =>
      if is_leagal_to_roll b (on_action b) then Playing (new_factory (set_rolled r b) None None) else t
  | DRoll _, Playing _ => t
  | DAsk _, Waiting _ => t
  | DAsk q, Playing f => Playing (fst (answer q f))
  | DPickup, Waiting _ => t
  | DPickup, Playing f =>
      match fac_pickupdice f with
      | (b, Ok _) => Waiting b
      | (b, Exc _) => Playing (on_board b f)
      end
  | DTalk a, Waiting b => Waiting (fst (act a b))
  | DTalk a, Playing f => Playing (on_board (fst (act a (fboard f))) f)
  end.
Fixpoint game (ds : list deed) (t : table) : table :=
  match ds with [] => t | d :: ds' => game ds' (deal d t) end.
