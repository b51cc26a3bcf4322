(* Properties C59 and C90: escaping and normalising HTML *)
From Verif Require Import Py HtmlModel HtmlSpec HtmlProofs.

(* C59 *)
Theorem C59_escape : forall s,
  (forall c, In c (escape s) -> c <> "<"%char /\ c <> ">"%char)
  /\ (forall a b, escape s = a ++ "&"%char :: b -> exists r, b = L "lt;" ++ r \/ b = L "gt;" ++ r \/ b = L "amp;" ++ r)
  /\ unescape (escape s) = s
  /\ (forall t, escape (s ++ t) = escape s ++ escape t)
  /\ (escape s = s <-> forall c, In c s -> ~ special c).
Proof. exact escaping. Qed.
Print Assumptions C59_escape.
Example C59_case : escape (L "a<b> & 'c'?") = L "a&lt;b&gt; &amp; 'c'?" /\ unescape (L "a&lt;b&gt; &amp; 'c'?") = L "a<b> & 'c'?" /\ escape (L "&lt;") = L "&amp;lt;".
Proof. vm_compute. auto. Qed.

(* C90 *)
Theorem C90_nomalize : forall s t,
  (nomalize s = nomalize t <-> unbroken s = unbroken t)
  /\ nomalize (nomalize s) = nomalize s
  /\ (forall a b, nomalize s = a ++ ">"%char :: b -> exists b', b = line_break :: b')
  /\ (forall a b, nomalize s = a ++ line_break :: b -> exists a', a = a' ++ [">"%char]).
Proof. exact normal_form. Qed.
Print Assumptions C90_nomalize.
Definition broken : str := L "<p>" ++ [line_break] ++ L "a" ++ [line_break; line_break] ++ L "b</p>".
Example C90_case : nomalize broken = L "<p>" ++ [line_break] ++ L "ab</p>" ++ [line_break] /\ nomalize broken = nomalize (L "<p>ab</p>") /\ broken <> L "<p>ab</p>".
Proof. vm_compute. split; [reflexivity|]. split; [reflexivity|discriminate]. Qed.
