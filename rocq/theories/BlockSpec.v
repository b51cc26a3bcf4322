(* What a wiki text with preformatted blocks shows *)
From Verif Require Import Py HtmlModel HtmlSpec TreeSpec TocSpec WikiSpec ShowSpec ListSpec.
Open Scope string_scope.
Open Scope list_scope.
Open Scope nat_scope.

(* ---- what is written ---- *)
(* a line of text or of a list; a block of lines between three braces *)
Inductive bline := Read (x : line) | Block (b : list str).
Definition b_written (x : bline) : list str := match x with Read x => [written x] | Block b => [L "{{{"] ++ b ++ [L "}}}"] end.
Definition b_good (x : bline) : Prop := match x with Read x => good x | Block b => Forall (fun s => one_line s /\ s <> L "}}}") b end.

(* ---- blocks ---- *)
(* #!name says what the block is, and is not shown *)
Definition directive_name (s : str) : option str :=
  if starts (L "#!") s then match skipn 2 s with [] => None | n => if forallb word_char n then Some n else None end else None.
Definition shown_lines (b : list str) : list str := filter (fun s => match directive_name s with Some _ => false | None => true end) b.
Definition language (b : list str) : option str := fold_left (fun l s => match directive_name s with Some n => Some n | None => l end) b None.
Definition block_shown (rst : str -> res str) (b : list str) : res str :=
  match language b with
  | Some n => if list_eq_dec ascii_dec n (L "rst") then rst (lines_text (shown_lines b)) else Ok (pre_html (shown_lines b))
  | None => Ok (pre_html (shown_lines b))
  end.

(* ---- pages ---- *)
(* a line that is not empty, as on a page without blocks *)
Definition line_step (wikipath : str) (st : list_state) (x : line) : option (str * (list bullet * list mark * option str)) :=
  let '(ls, o, pend) := in_div st in
  match x with
  | Plain l =>
      if match ls with [] => true | _ => no_headings l end then
        match line_shown wikipath o pend l with Some (out, o, pend) => Some (line_begun st ++ out, (ls, o, pend)) | None => None end
      else None
  | Item i b l =>
      match o, item_shown ls i b with
      | [], Some (out1, ls) =>
          if no_headings l then
            match line_shown wikipath [] None l with Some (out2, o, pend2) => Some (line_begun st ++ settled pend ++ out1 ++ out2, (ls, o, pend2)) | None => None end
          else None
      | _, _ => None
      end
  end.
(* [held]: the blocks of the paragraph so far; they are shown when it has ended *)
Fixpoint block_page (wikipath : str) (rst : str -> res str) (st : list_state) (held : str) (xs : list bline) : option str :=
  match xs with
  | [] => Some (all_ended st ++ held)
  | Read (Plain []) :: xs => match block_page wikipath rst None [] xs with Some s => Some (all_ended st ++ held ++ s) | None => None end
  | Read x :: xs =>
      match line_step wikipath st x with
      | Some (out, st) => match block_page wikipath rst (Some st) held xs with Some s => Some (out ++ s) | None => None end
      | None => None
      end
  | Block b :: xs =>
      match block_shown rst b with
      | Ok t => match block_page wikipath rst (Some (in_div st)) (held ++ t) xs with Some s => Some (line_begun st ++ s) | None => None end
      | Exc _ => None
      end
  end.

(* ---- a paragraph ---- *)
Definition reads (xs : list bline) : list line := flat_map (fun x => match x with Read x => [x] | Block _ => [] end) xs.
Definition blocks (xs : list bline) : list (list str) := flat_map (fun x => match x with Read _ => [] | Block b => [b] end) xs.
Fixpoint blocks_shown (rst : str -> res str) (bs : list (list str)) : res str :=
  match bs with
  | [] => Ok []
  | b :: bs => match block_shown rst b with
               | Ok s => match blocks_shown rst bs with Ok t => Ok (s ++ t) | Exc e => Exc e end
               | Exc e => Exc e
               end
  end.
