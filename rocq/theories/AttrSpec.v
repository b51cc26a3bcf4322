(* What kind of value an attribute has, by its name. *)
From Verif Require Import Py ImageModel.
Open Scope string_scope.
Open Scope list_scope.
Open Scope Z_scope.

Definition int_names : list str := map L
  ["x"; "y"; "width"; "height"; "eyesize"; "max_count"; "x_offset"; "y_offset"; "x_offset2"; "y_offset2"].
Definition text_names : list str := map L ["image"; "font"; "background"; "color"; "text"; "backgammon"; "id"; "initialCube"].
Definition flag_names : list str := map L ["flip"; "fill"; "hide_count"].
Definition choices : list (str * list str) :=
  [(L "player", map L ["you"; "him"]); (L "parity", map L ["even"; "odd"]); (L "diestyle", map L ["dot"; "numeric"])].
Definition right_type (n : str) (v : value) : Prop :=
  (In n int_names /\ exists z, v = VInt z) \/
  (In n text_names /\ exists s, v = VStr s) \/
  (In n flag_names /\ exists b, v = VBool b) \/
  (exists l s, In (n, l) choices /\ In s l /\ v = VStr s) \/
  (n = L "mag" /\ exists f, v = VFlt f).
