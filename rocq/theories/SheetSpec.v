(* How style sheets are written: rules of selectors and attributes, one to a line *)
From Verif Require Import Py CmpSpec.
From Verif Require ImageModel.
Open Scope string_scope.
Open Scope list_scope.

Definition spaces (n : nat) : str := repeat " "%char n.
Definition word : str := L "-_0123456789" ++ letters.
Definition free_of (cs s : str) : Prop := forall c, In c s -> ~ In c cs.

(* element[name=value]:data(text) *)
Definition good_selector (s : ImageModel.selector) : Prop :=
  of_chars (L "_" ++ letters) (ImageModel.s_element s)
  /\ match ImageModel.s_name s, ImageModel.s_value s with
     | Some n, Some v => of_chars word n /\ of_chars word v
     | None, None => True
     | _, _ => False
     end
  /\ match ImageModel.s_data s with Some d => d <> [] /\ free_of (L ") {") d | None => True end.
Definition write_selector (s : ImageModel.selector) : str :=
  ImageModel.s_element s
  ++ match ImageModel.s_name s, ImageModel.s_value s with Some n, Some v => L "[" ++ n ++ L "=" ++ v ++ L "]" | _, _ => [] end
  ++ match ImageModel.s_data s with Some d => L ":data(" ++ d ++ L ")" | None => [] end.
(* what is between two semicolons: an attribute with its value, or nothing *)
Inductive item := Attr (n v : str) (before after_name before_value after : nat) | Nothing (blanks : nat).
Definition good_item (i : item) : Prop :=
  match i with Attr n v _ _ _ _ => of_chars word n /\ v <> [] /\ free_of (L " ;]") v | Nothing _ => True end.
Definition write_item (i : item) : str :=
  match i with
  | Attr n v a b c d => spaces a ++ n ++ spaces b ++ L ":" ++ spaces c ++ v ++ spaces d
  | Nothing n => spaces n
  end.
Fixpoint write_items (l : list item) : str :=
  match l with [] => [] | [i] => write_item i | i :: l => write_item i ++ L ";" ++ write_items l end.
Definition attributes (l : list item) : list (str * str) :=
  flat_map (fun i => match i with Attr n v _ _ _ _ => [(n, v)] | Nothing _ => [] end) l.
(* a line with a rule: the first selector, the others each after some blanks, and what follows the last brace *)
Record written_rule := mkwritten {
  indent : nat; first : ImageModel.selector; others : list (nat * ImageModel.selector); gap : nat; items : list item; tail : str }.
Definition good_rule (w : written_rule) : Prop :=
  good_selector (first w) /\ (forall n s, In (n, s) (others w) -> good_selector s)
  /\ (forall i, In i (items w) -> good_item i) /\ write_items (items w) <> [] /\ ~ In "}"%char (tail w).
Definition write_rule (w : written_rule) : str :=
  spaces (indent w) ++ write_selector (first w) ++ flat_map (fun ns => spaces (S (fst ns)) ++ write_selector (snd ns)) (others w)
  ++ spaces (gap w) ++ L "{" ++ write_items (items w) ++ L "}" ++ tail w.
(* a line without a rule *)
Definition no_rule (l : str) : Prop := forall a b c, l <> a ++ "{"%char :: b ++ "}"%char :: c.

(* a sheet: lines with and without rules *)
Inductive sheet_line := Rule (w : written_rule) | Plain (l : str).
Definition good_line (x : sheet_line) : Prop := match x with Rule w => good_rule w | Plain l => no_rule l end.
Definition write_line (x : sheet_line) : str := match x with Rule w => write_rule w | Plain l => l end.
(* the rules that a sheet says, each with the number of its line *)
Fixpoint rules_from (no : Z) (l : list sheet_line) : list (Z * written_rule) :=
  match l with
  | [] => []
  | Rule w :: l => (no, w) :: rules_from (no + 1) l
  | Plain _ :: l => rules_from (no + 1) l
  end.
(* a rule that was read is the one that was written; of an attribute that is given twice the last value counts *)
Definition reads (path : str) (r : ImageModel.rule) (nw : Z * written_rule) : Prop :=
  ImageModel.r_path r = path /\ ImageModel.r_lineno r = fst nw
  /\ ImageModel.pattern r = first (snd nw) :: map snd (others (snd nw))
  /\ NoDup (map fst (ImageModel.block r))
  /\ forall k v, In (k, v) (ImageModel.block r) <-> holds (attributes (items (snd nw))) k v.
(* a line that is a comment of style sheets *)
Definition comment (l : str) : Prop := exists s, l = L "/*" ++ s ++ L "*/".
