(* Specification for C164: sessions of a client that throws dice *)
From Verif Require Import Py BoardModel.

Definition real_dice (a : action) : Prop :=
  match a with ARoll d => 0 <= fst d <= 6 /\ 0 <= snd d <= 6 | _ => True end.
(* the score has a place in a GNU match identifier *)
Definition score_fits (b : board) : Prop := fst (score b) <= 32767 /\ snd (score b) <= 32767.
