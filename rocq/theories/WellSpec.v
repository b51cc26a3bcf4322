(* What html.validate asks of a page: that it is well formed between the tags of a document, as the
   XML recommendation says.  No comments, sections, character references, apostrophes around values and
   no > in texts and values; text with any of them is refused, although it may be XML. *)
From Verif Require Import Py HtmlModel HtmlSpec TreeModel TreeSpec WikiModel WikiSpec.
From Verif Require XmlSpec.
Open Scope string_scope.
Open Scope list_scope.
Open Scope nat_scope.

(* every ampersand begins a reference to one of the entities that XML knows *)
Definition referring (s : str) : Prop :=
  forall a b, s = a ++ "&"%char :: b -> exists t r, In t [L "lt;"; L "gt;"; L "amp;"; L "quot;"; L "apos;"] /\ b = t ++ r.
(* the characters of us-ascii that XML allows *)
Definition legal_text (s : str) : Prop := forall c, In c s -> XmlSpec.legal c = true.
Definition char_data (s : str) : Prop := legal_text s /\ plain s /\ referring s.
Definition att_value (s : str) : Prop := char_data s /\ quiet s.
Definition att_list (a : list (str * str)) : Prop :=
  NoDup (map fst a) /\ forall k v, In (k, v) a -> XmlSpec.is_name k = true /\ att_value v.
Definition written (a : list (str * str)) : str := flat_map (fun kv => L " " ++ fst kv ++ L "=" ++ [quote] ++ snd kv ++ [quote]) a.
Inductive well_formed : str -> Prop :=
| wf_none : well_formed []
| wf_text : forall t s, char_data t -> well_formed s -> well_formed (t ++ s)
| wf_empty : forall n a gap s, XmlSpec.is_name n = true -> att_list a -> forallb XmlSpec.blank gap = true -> well_formed s ->
    well_formed (L "<" ++ n ++ written a ++ gap ++ L "/>" ++ s)
| wf_element : forall n a inside s, XmlSpec.is_name n = true -> att_list a -> well_formed inside -> well_formed s ->
    well_formed (L "<" ++ n ++ written a ++ L ">" ++ inside ++ L "</" ++ n ++ L ">" ++ s).
(* tables of the Analysis macro that can be written *)
Definition table_fit (t : table) : Prop :=
  legal_text (tclass t) /\ quiet (tclass t)
  /\ forall r, In r (rows t) -> legal_text (fst r) /\ quiet (fst r)
     /\ forall c, In c (snd r) -> legal_text (ctext c) /\ plain (ctext c) /\ references (ctext c) /\ NoDup (map fst (cattrs c))
        /\ forall k v, In (k, v) (cattrs c) -> good_key k /\ XmlSpec.is_name (L k) = true /\ legal_text v /\ quiet v.
