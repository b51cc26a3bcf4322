(* What a wiki text with tables shows *)
From Verif Require Import Py HtmlModel HtmlSpec TreeSpec TocSpec WikiSpec ShowSpec ListSpec.
Open Scope string_scope.
Open Scope list_scope.
Open Scope nat_scope.

(* ---- what is written ---- *)
(* a line is made of tokens and bars; a bar that begins a cell, a bar that is escaped, and at the end of a line a bar that ends the row, with blanks *)
Inductive piece := Tok (t : token) | Bar | OffBar.
Definition piece_text (p : piece) : str := match p with Tok t => token_text t | Bar => L "||" | OffBar => L "!||" end.
Definition pieces_text (ps : list piece) : str := flat_map piece_text ps.
Record trow := mkrow { pieces : list piece; shut : option nat }.
Definition shut_text (e : option nat) : str := match e with Some n => L "||" ++ repeat " "%char n | None => [] end.
Definition row_text (r : trow) : str := pieces_text (pieces r) ++ shut_text (shut r).
Definition is_blank (c : ascii) : bool := existsb (Ascii.eqb c) [" "; "009"; "010"; "011"; "012"; "013"]%char.
(* a bar with nothing but blanks after it ends the row *)
Definition piece_stands (p : piece) (s : str) : Prop := match p with Tok t => stands t s | Bar | OffBar => forallb is_blank s = false end.
Fixpoint pieces_stand (ps : list piece) (s : str) : Prop := match ps with [] => True | p :: ps => piece_stands p (pieces_text ps ++ s) /\ pieces_stand ps s end.
Definition row_good (r : trow) : Prop :=
  pieces_stand (pieces r) (shut_text (shut r)) /\ head_is (fun c => Ascii.eqb c " " || Ascii.eqb c ">") (row_text r) = false
  /\ (forall s, row_text r <> s ++ L "::") /\ one_line (row_text r).

(* ---- where it is shown ---- *)
Inductive spot_in := OutOf | InTable | InCell.
Definition table_open : str := L "<table" ++ tag_attr "class" (L "wiki") ++ L ">" ++ nl.
Definition table_close : str := L "</table>" ++ nl.
Definition row_open : str := L "<tr>" ++ nl.
Definition row_close : str := L "</tr>" ++ nl.
Definition cell_open : str := L "<td>" ++ nl.
Definition cell_close : str := L "</td>" ++ nl.
(* a cell begins a row and a table if there is none; what is switched on outside of a cell must be off, in the cell before it ends *)
Definition cell_begun (w : spot_in) (o : list mark) (pend : option str) : option str :=
  match w, o with
  | OutOf, [] => Some (settled pend ++ table_open ++ row_open ++ cell_open)
  | InTable, [] => Some (settled pend ++ row_open ++ cell_open)
  | InCell, _ => Some (settled pend ++ flat_map mark_close o ++ cell_close ++ cell_open)
  | _, _ => None
  end.
Definition row_ended (e : option nat) (w : spot_in) (o : list mark) (pend : option str) : str * spot_in * list mark * option str :=
  match e, w with
  | Some _, InCell => (settled pend ++ flat_map mark_close o ++ cell_close ++ row_close, InTable, [], None)
  | _, _ => ([], w, o, pend)
  end.
Definition fits_in (w : spot_in) (t : token) : bool := match w with OutOf => true | _ => no_headings [t] end.
Fixpoint pieces_shown (wikipath : str) (w : spot_in) (o : list mark) (pend : option str) (ps : list piece) : option (str * spot_in * list mark * option str) :=
  match ps with
  | [] => Some ([], w, o, pend)
  | p :: ps =>
      match match p with
            | Tok t => if fits_in w t then match line_shown wikipath o pend [t] with Some (s, o, pend) => Some (s, w, o, pend) | None => None end else None
            | OffBar => Some ([], w, o, more pend (L "||"))
            | Bar => match cell_begun w o pend with Some s => Some (s, InCell, [], None) | None => None end
            end with
      | Some (s1, w, o, pend) => match pieces_shown wikipath w o pend ps with Some (s2, w, o, pend) => Some (s1 ++ s2, w, o, pend) | None => None end
      | None => None
      end
  end.
Definition table_state : Set := option (spot_in * list mark * option str).
Definition ended_in (w : spot_in) : str := match w with OutOf => [] | InTable => table_close | InCell => cell_close ++ row_close ++ table_close end.
Definition t_ended (st : table_state) : str := match st with Some (w, o, pend) => settled pend ++ flat_map mark_close o ++ ended_in w ++ L "</div>" ++ nl | None => [] end.
Definition t_begun (st : table_state) : str := match st with Some _ => [] | None => L "<div>" ++ nl end.
Definition t_div (st : table_state) : spot_in * list mark * option str := match st with Some x => x | None => (OutOf, [], None) end.
(* an empty line ends the table and the paragraph *)
Fixpoint table_page (wikipath : str) (st : table_state) (rs : list trow) : option str :=
  match rs with
  | [] => Some (t_ended st)
  | r :: rs =>
      match row_text r with
      | [] => match table_page wikipath None rs with Some s => Some (t_ended st ++ s) | None => None end
      | _ =>
          let '(w, o, pend) := t_div st in
          match pieces_shown wikipath w o pend (pieces r) with
          | None => None
          | Some (out1, w, o, pend) =>
              let '(out2, w, o, pend) := row_ended (shut r) w o pend in
              match table_page wikipath (Some (w, o, pend)) rs with Some s => Some (t_begun st ++ out1 ++ out2 ++ s) | None => None end
          end
      end
  end.

(* ---- tables of cells ---- *)
Definition cells_row (cells : list (list token)) (n : nat) : trow := mkrow (flat_map (fun l => Bar :: map Tok l) cells) (Some n).
Definition cell_shown (wikipath : str) (l : list token) : option str :=
  match line_shown wikipath [] None l with Some (s, o, pend) => Some (cell_open ++ s ++ settled pend ++ flat_map mark_close o ++ cell_close) | None => None end.
Fixpoint all_shown {X} (f : X -> option str) (l : list X) : option str :=
  match l with [] => Some [] | x :: l => match f x, all_shown f l with Some s, Some t => Some (s ++ t) | _, _ => None end end.
Definition row_shown (wikipath : str) (cells : list (list token)) : option str :=
  match all_shown (cell_shown wikipath) cells with Some s => Some (row_open ++ s ++ row_close) | None => None end.
Definition tables_around (before : str) : nat := occurrences (L "<table") before - occurrences (L "</table>") before.
