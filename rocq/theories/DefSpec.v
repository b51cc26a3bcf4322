(* What a wiki text with definitions shows *)
From Verif Require Import Py HtmlModel HtmlSpec TreeSpec TocSpec WikiSpec ShowSpec ListSpec QuoteSpec.
Open Scope string_scope.
Open Scope list_scope.
Open Scope nat_scope.

(* ---- what is written ---- *)
(* a term to be defined, with two colons at the end; a line of text; a line that is indented *)
Inductive dline := Term (l : list token) | Words (l : list token) | Inset (n : nat) (l : list token).
Definition d_written (x : dline) : str :=
  match x with Term l => line_text l ++ L "::" | Words l => line_text l | Inset n l => repeat " "%char n ++ line_text l end.
Fixpoint stand_before (l : list token) (s : str) : Prop := match l with [] => True | t :: l => stands t (line_text l ++ s) /\ stand_before l s end.
Definition d_good (x : dline) : Prop :=
  match x with
  | Term l => stand_before l (L "::") /\ head_is (fun c => Ascii.eqb c " " || Ascii.eqb c ">") (line_text l) = false /\ one_line (line_text l)
  | Words l => good_line l
  | Inset n l => q_good (Indented n l)
  end.

(* ---- where it is shown ---- *)
(* outside; in a quote; in a list of definitions, outside of its entries; in a definition *)
Inductive dplace := NoList | Quoted | InList | InBody.
Definition dl_open : str := L "<dl>" ++ nl.
Definition dl_close : str := L "</dl>" ++ nl.
Definition dt_open : str := L "<dt>" ++ nl.
Definition dt_close : str := L "</dt>" ++ nl.
Definition dd_open : str := L "<dd>" ++ nl.
Definition dd_close : str := L "</dd>" ++ nl.
Definition finished (o : list mark) (pend : option str) : str := settled pend ++ flat_map mark_close o.
Definition d_after : Set := str * list mark * option str.
(* what begins a term; nothing may be switched on outside of quotes and definitions *)
Definition term_begins (a : dplace) (o : list mark) (pend : option str) : option str :=
  match a, o with
  | NoList, [] => Some (settled pend ++ dl_open ++ dt_open)
  | Quoted, _ => Some (finished o pend ++ frame_close FQuote ++ dl_open ++ dt_open)
  | InList, [] => Some (settled pend ++ dt_open)
  | InBody, _ => Some (finished o pend ++ dd_close ++ dt_open)
  | _, _ => None
  end.
(* a line of text ends a quote and a definition, but not the list *)
Definition words_begin (a : dplace) (o : list mark) (pend : option str) : dplace * d_after :=
  match a with
  | NoList | InList => (a, ([], o, pend))
  | Quoted => (NoList, (finished o pend ++ frame_close FQuote, [], None))
  | InBody => (InList, (finished o pend ++ dd_close, [], None))
  end.
(* an indented line is in a definition if there is a list, and else in a quote; it ends what is switched on in a definition *)
Definition inset_begins (a : dplace) (o : list mark) (pend : option str) : option (dplace * d_after) :=
  match a, o with
  | NoList, [] => Some (Quoted, (settled pend ++ frame_open FQuote, [], None))
  | Quoted, _ => Some (Quoted, ([], o, pend))
  | InList, [] => Some (InBody, (settled pend ++ dd_open, [], None))
  | InBody, [] => Some (InBody, ([], [], pend))
  | InBody, _ => Some (InBody, (finished o pend, [], None))
  | _, _ => None
  end.
Definition d_fits (a : dplace) (l : list token) : bool := match a with NoList => true | _ => no_headings l end.
(* a line: the place, what is on and the text at its end *)
Definition rest_shown (wikipath : str) (a : dplace) (x : d_after) (l : list token) : option (dplace * d_after) :=
  let '(out1, o, pend) := x in
  if d_fits a l then match line_shown wikipath o pend l with Some (out2, o, pend) => Some (a, (out1 ++ out2, o, pend)) | None => None end else None.
Definition dline_shown (wikipath : str) (a : dplace) (o : list mark) (pend : option str) (x : dline) : option (dplace * d_after) :=
  match x with
  | Term l =>
      match term_begins a o pend, no_headings l, line_shown wikipath [] None l with
      | Some out1, true, Some (out2, o, pend) => Some (InBody, (out1 ++ out2 ++ finished o pend ++ dt_close ++ dd_open, [], None))
      | _, _, _ => None
      end
  | Words l => let '(a, y) := words_begin a o pend in rest_shown wikipath a y l
  | Inset _ l => match inset_begins a o pend with Some (a, y) => rest_shown wikipath a y l | None => None end
  end.
Definition def_state : Set := option (dplace * list mark * option str).
Definition d_ends (a : dplace) : str :=
  match a with NoList => [] | Quoted => frame_close FQuote | InList => dl_close | InBody => dd_close ++ dl_close end.
Definition d_ended (st : def_state) : str := match st with Some (a, o, pend) => finished o pend ++ d_ends a ++ L "</div>" ++ nl | None => [] end.
Definition d_begun (st : def_state) : str := match st with Some _ => [] | None => L "<div>" ++ nl end.
Definition d_div (st : def_state) : dplace * list mark * option str := match st with Some x => x | None => (NoList, [], None) end.
(* an empty line ends everything *)
Fixpoint def_page (wikipath : str) (st : def_state) (xs : list dline) : option str :=
  match xs with
  | [] => Some (d_ended st)
  | Words [] :: xs => match def_page wikipath None xs with Some s => Some (d_ended st ++ s) | None => None end
  | x :: xs =>
      let '(a, o, pend) := d_div st in
      match dline_shown wikipath a o pend x with
      | Some (b, (out, o, pend)) => match def_page wikipath (Some (b, o, pend)) xs with Some s => Some (d_begun st ++ out ++ s) | None => None end
      | None => None
      end
  end.

(* ---- lists of definitions ---- *)
(* a term and the lines of its definition *)
Definition entry : Set := list token * list (nat * list token).
Definition entry_lines (e : entry) : list str := (line_text (fst e) ++ L "::") :: map (fun x => repeat " "%char (fst x) ++ line_text (snd x)) (snd e).
Definition entry_good (e : entry) : Prop := d_good (Term (fst e)) /\ Forall (fun x => d_good (Inset (fst x) (snd x))) (snd e).
Definition entry_plain (e : entry) : bool := no_headings (fst e) && forallb (fun x => no_headings (snd x)) (snd e).
(* text goes on in the next line, but what is switched on ends with the line *)
Fixpoint body_shown (wikipath : str) (pend : option str) (ls : list (list token)) : option str :=
  match ls with
  | [] => Some (settled pend)
  | l :: ls =>
      match line_shown wikipath [] pend l with
      | None => None
      | Some (out, [], pend) => match body_shown wikipath pend ls with Some s => Some (out ++ s) | None => None end
      | Some (out, o, pend) => match body_shown wikipath None ls with Some s => Some (out ++ finished o pend ++ s) | None => None end
      end
  end.
Definition entry_shown (wikipath : str) (e : entry) : option str :=
  match line_shown wikipath [] None (fst e), body_shown wikipath None (map snd (snd e)) with
  | Some (out, o, pend), Some s => Some (dt_open ++ out ++ finished o pend ++ dt_close ++ dd_open ++ s ++ dd_close)
  | _, _ => None
  end.
Fixpoint entries_shown (wikipath : str) (es : list entry) : option str :=
  match es with [] => Some [] | e :: es => match entry_shown wikipath e, entries_shown wikipath es with Some s, Some t => Some (s ++ t) | _, _ => None end end.
Definition lists_around (before : str) : nat := occurrences (L "<dl>") before - occurrences (L "</dl>") before.
