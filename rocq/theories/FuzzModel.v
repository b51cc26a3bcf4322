(* Model of bglib/doc/fuzzing.py and of the genes of bglib/doc/bgwiki.py:541-553.
   Not modelled: the stack traces of errors (16-22), __hash__ and __str__ (47-52); fork and pipe
   succeed (88-93), and what a child prints is left out. *)
From Verif Require Import Py.
From Verif Require TreeModel WikiModel.
Open Scope string_scope.
Open Scope list_scope.
Open Scope Z_scope.

(* the class attributes single and multi, fuzzing.py:32-34 and bgwiki.py:542-553 *)
Record gclass := mkgclass { single : list str; multi : list str }.
Definition Gene : gclass := mkgclass [L "g"; L "t"; L "a"; L "c"] [].
Definition dquote : ascii := ascii_of_nat 34.
(* seps + symbols + numeric + alpha_n + romaon_n, bgwiki.py:543-547 *)
Definition w_single : str :=
  [ascii_of_nat 10; " "%char] ++ (L "[]'" ++ [dquote] ++ L "_~^`{}.:*=-+#|!<>/&Xx") ++ L "1234567890" ++ L "abcdefgh" ++ L "iv".
Definition wGene : gclass := mkgclass (map (fun c => [c]) w_single)
  [L "http:"; L "https:"; L "query:"; L "entry:"; L "match:"; L "wiki:"; L "||"; L "CamelWord"].

(* count, 35-36 *)
Definition count (k : gclass) : Z := zlen (single k) + zlen (multi k).
(* num_to_text, 38-40 *)
Definition num_to_text (k : gclass) (n : Z) : res str := pyget (single k ++ multi k) n.

Record gene := mkgene { gklass : gclass; code : list Z; ghtml : option str }.

(* __init__, 42-44: the argument is given to range, so that a tuple is refused; draw is what
   random.randint(0, self.count() - 1) gives each time *)
Inductive arg := AInt (n : Z) | ATuple (l : list Z).
Definition new_gene (k : gclass) (draw : nat -> Z) (a : arg) : res gene :=
  match a with
  | AInt n => Ok (mkgene k (map draw (seq 0 (Z.to_nat n))) None)
  | ATuple _ => Exc TypeError
  end.

(* get_text, 54-55 *)
Definition get_text (g : gene) : res str :=
  let! l := mapM (num_to_text (gklass g)) (code g) in Ok (List.concat l).

(* FormatError and ParseError are false, 15-29 *)
Inductive verdict := True_ | FormatError (e : exn) | ParseError (e : exn).
Definition truth (v : verdict) : bool := match v with True_ => true | _ => false end.

Section Formatter.
Context {St : Type}.
Variable fparse : str -> res St.               (* formatter.parse(text), and the formatter after it *)
Variable fmake : St -> res (option str).       (* formatter.make_html() *)
Variable validate : str -> res unit.           (* bglib.doc.html.validate *)

(* format, 57-67 *)
Definition format (g : gene) : gene * res verdict :=
  match get_text g with
  | Exc e => (g, Exc e)
  | Ok text =>
      match fparse text with
      | Exc e => (g, Ok (FormatError e))
      | Ok st =>
          match fmake st with
          | Exc e => (g, Ok (FormatError e))
          | Ok h => (mkgene (gklass g) (code g) h, Ok True_)
          end
      end
  end.

(* verify, 69-75 *)
Definition verify (g : gene) : res verdict :=
  match ghtml g with
  | None | Some [] => Exc AssertionError
  | Some h => match validate h with Ok _ => Ok True_ | Exc e => Ok (ParseError e) end
  end.

(* iter_subset, 77-79: what each next() gives, until one raises *)
Fixpoint iter_from (draw : nat -> Z) (all : list Z) (i : nat) (rest : list Z) : list (res gene) :=
  match rest with
  | [] => []
  | _ :: rest =>
      match new_gene Gene draw (ATuple (firstn i all ++ skipn (S i) all)) with
      | Ok g => Ok g :: iter_from draw all (S i) rest
      | Exc e => [Exc e]
      end
  end.
Definition iter_subset (draw : nat -> Z) (g : gene) : list (res gene) := iter_from draw (code g) 0 (code g).
(* shorter_fails, 81-84: iter_subset is no name of the module *)
Definition shorter_fails (g : gene) : list (res gene) := [Exc NameError].

(* fuzz_it, 112-125: the child of one trial; whether it wrote to the pipe and how it ends *)
Inductive ending := Exits (n : Z) | Raises (e : exn).
Definition child (g : gene) : bool * ending :=
  match format g with
  | (_, Exc e) => (false, Raises e)
  | (g', Ok v) =>
      if truth v then
        match verify g' with
        | Exc e => (false, Raises e)
        | Ok v' => if truth v' then (true, Exits 0) else (false, Exits 1)
        end
      else (false, Exits 1)
  end.
(* 96-107: the parent waits three seconds for something to read.  It has the other end of the pipe open
   itself, so that the end of the child is nothing to read.  Whether it prints 'timed out' and the gene *)
Definition says_timed_out (quick : bool) (g : gene) : bool := negb (fst (child g) && quick).
End Formatter.

(* the formatter of the wiki, bgwiki.py:556-561: one is made, and the child of every trial has it as it was *)
Section Wiki.
Variable design_order : list string.                       (* these as in WikiModel *)
Variable wikipath : str.
Variable now : str.
Variable urlencode : list (string * str) -> str.
Variable analysis : str -> res (list WikiModel.table).
Variable rst : str -> res str.
Definition wiki_parse (text : str) : res TreeModel.doc :=
  match WikiModel.parse design_order wikipath now urlencode analysis text TreeModel.new_doc with (d, Ok _) => Ok d | (_, Exc e) => Exc e end.
Definition wiki_make (d : TreeModel.doc) : res (option str) := let! h := WikiModel.make_html design_order rst d in Ok (Some h).
End Wiki.
