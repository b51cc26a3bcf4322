(* What a wiki text with citations and quotes shows *)
From Verif Require Import Py HtmlModel HtmlSpec TreeSpec TocSpec WikiSpec ShowSpec ListSpec.
Open Scope string_scope.
Open Scope list_scope.
Open Scope nat_scope.

(* ---- what is written ---- *)
(* a line of text; a line that is cited, with as many signs as it was cited; a line that is indented *)
Inductive qline := Said (l : list token) | Cited (n : nat) (l : list token) | Indented (n : nat) (l : list token).
Definition q_written (x : qline) : str :=
  match x with Said l => line_text l | Cited n l => repeat ">"%char n ++ L " " ++ line_text l | Indented n l => repeat " "%char n ++ line_text l end.
Definition no_item (s : str) : Prop := forall b r, good_bullet b -> s <> bullet_text b ++ L " " ++ r.
Definition q_good (x : qline) : Prop :=
  match x with
  | Said l => good_line l
  | Cited n l => 1 <= n /\ all_stand l /\ (forall s, line_text l <> s ++ L "::") /\ one_line (line_text l)
  | Indented n l => 2 <= n /\ all_stand l /\ head_is (Ascii.eqb " ") (line_text l) = false /\ no_item (line_text l) /\ (forall s, line_text l <> s ++ L "::") /\ one_line (line_text l)
  end.

(* ---- where it is shown ---- *)
Inductive frame := FCite | FPara | FQuote.
Definition frame_open (f : frame) : str :=
  match f with
  | FCite => L "<blockquote" ++ tag_attr "class" (L "citation") ++ L ">" ++ nl
  | FPara => L "<p>" ++ nl
  | FQuote => L "<blockquote>" ++ nl ++ L "<p>" ++ nl
  end.
Definition frame_close (f : frame) : str :=
  match f with FCite => L "</blockquote>" ++ nl | FPara => L "</p>" ++ nl | FQuote => L "</p>" ++ nl ++ L "</blockquote>" ++ nl end.
(* in a quote; in citations without a paragraph; in one citation and [p] more, a paragraph, and [q] citations in that *)
Inductive place := InQuote | Bare (n : nat) | Within (p q : nat).
Definition around (a : place) : list frame :=
  match a with InQuote => [FQuote] | Bare n => repeat FCite n | Within p q => repeat FCite (S p) ++ [FPara] ++ repeat FCite q end.
Definition citations (fs : list frame) : nat := List.length (filter (fun f => match f with FCite => true | _ => false end) fs).
(* a line that is neither cited nor indented ends a quote, but only the innermost citation *)
Definition said (a : place) : place :=
  match a with InQuote => Bare 0 | Bare n => Bare (n - 1) | Within p (S q) => Within p q | Within p 0 => Bare p end.
(* a line that was cited [n] times is in [n] citations; the paragraph goes on if it lies in no more *)
Definition cited (n : nat) (a : place) : place :=
  match a with Within p q => if Nat.leb (S p) n then Within p (n - S p) else Within (n - 1) 0 | _ => Within (n - 1) 0 end.
Definition indented (a : place) : option place :=
  match a with InQuote => Some InQuote | _ => match said a with Bare 0 => Some InQuote | _ => None end end.
Definition next (x : qline) (a : place) : option place :=
  match x with Said _ => Some (said a) | Cited n _ => Some (cited n a) | Indented _ _ => indented a end.

(* ---- what is written for that ---- *)
(* leaving frames ends what is switched on; while something is switched on no frame can be entered *)
Definition closed (fs : list frame) (o : list mark) (pend : option str) : str * list mark * option str :=
  match fs with [] => ([], o, pend) | _ => (settled pend ++ flat_map mark_close o ++ flat_map frame_close (rev fs), [], None) end.
Definition opened (fs : list frame) (o : list mark) (pend : option str) : option (str * list mark * option str) :=
  match fs, o with [], _ => Some ([], o, pend) | _, [] => Some (settled pend ++ flat_map frame_open fs, [], None) | _, _ :: _ => None end.
(* what [old] and [new] share stays *)
Fixpoint turned (old new : list frame) (o : list mark) (pend : option str) : option (str * list mark * option str) :=
  let change := let '(s1, o1, pend1) := closed old o pend in match opened new o1 pend1 with Some (s2, o2, pend2) => Some (s1 ++ s2, o2, pend2) | None => None end in
  match old, new with
  | f :: old', g :: new' =>
      match f, g with FCite, FCite | FPara, FPara | FQuote, FQuote => turned old' new' o pend | _, _ => change end
  | _, _ => change
  end.
Definition quote_state : Set := option (place * list mark * option str).
Definition q_ended (st : quote_state) : str :=
  match st with Some (a, o, pend) => settled pend ++ flat_map mark_close o ++ flat_map frame_close (rev (around a)) ++ L "</div>" ++ nl | None => [] end.
Definition q_begun (st : quote_state) : str := match st with Some _ => [] | None => L "<div>" ++ nl end.
Definition q_div (st : quote_state) : place * list mark * option str := match st with Some x => x | None => (Bare 0, [], None) end.
Definition q_tokens (x : qline) : list token := match x with Said l | Cited _ l | Indented _ l => l end.
Fixpoint quote_page (wikipath : str) (st : quote_state) (xs : list qline) : option str :=
  match xs with
  | [] => Some (q_ended st)
  | Said [] :: xs => match quote_page wikipath None xs with Some s => Some (q_ended st ++ s) | None => None end
  | x :: xs =>
      let '(a, o, pend) := q_div st in
      match next x a with
      | None => None
      | Some b =>
          match turned (around a) (around b) o pend with
          | None => None
          | Some (out1, o, pend) =>
              if match around b with [] => true | _ => no_headings (q_tokens x) end then
                match line_shown wikipath o pend (q_tokens x) with
                | None => None
                | Some (out2, o, pend) => match quote_page wikipath (Some (b, o, pend)) xs with Some s => Some (q_begun st ++ out1 ++ out2 ++ s) | None => None end
                end
              else None
          end
      end
  end.

(* ---- how deep a place in a page is ---- *)
Definition citations_around (before : str) : nat := occurrences (L "<blockquote class=") before - occurrences (L "</blockquote>") before.
