(* Lines of words *)
From Verif Require Import Py PyFacts Re Rx RxFacts HtmlModel HtmlSpec HtmlProofs TreeModel TreeSpec TocSpec WikiModel WikiSpec WikiText ShowSpec ShowRead ShowMatch ShowProofs ShowPage ShowWhole.
From Coq Require Import Permutation.
Open Scope string_scope.
Open Scope list_scope.
Open Scope nat_scope.

Lemma starts_foreign : forall p s, forallb word_or_blank s = true -> forallb word_or_blank p = false -> starts p s = false.
Proof.
  intros p s S P. destruct (starts p s) eqn:E; [|reflexivity]. apply starts_split in E. rewrite E, forallb_app in S. apply andb_prop in S. destruct S. congruence.
Qed.
Lemma begins_simple : forall s, forallb word_or_blank s = true -> begins s = numbered "m" s || camel_begins s.
Proof.
  intros s S. unfold begins. assert (A : existsb (fun p => starts (L p) s) signals = false).
  { unfold signals. cbn [existsb]. repeat rewrite starts_foreign by (exact S || reflexivity). reflexivity. }
  assert (B : existsb (fun p => numbered p s) number_signs = numbered "m" s).
  { assert (N : forall p, forallb word_or_blank (L p) = false -> numbered p s = false) by (intros p H; unfold numbered; rewrite starts_foreign by assumption; reflexivity).
    unfold number_signs. cbn [existsb]. rewrite (N "#"), (N "entry:"), (N "query:"), (N "{"), (N "match:"), (N "[") by reflexivity. rewrite !orb_false_r. reflexivity. }
  rewrite A, B. reflexivity.
Qed.
Fixpoint while_digits (s : str) : str * str := match s with c :: r => if is_digit c then (c :: fst (while_digits r), snd (while_digits r)) else ([], s) | [] => ([], []) end.
Lemma while_digits_spec : forall s, s = fst (while_digits s) ++ snd (while_digits s) /\ forallb is_digit (fst (while_digits s)) = true /\ head_is is_digit (snd (while_digits s)) = false.
Proof.
  induction s as [|c s (E & F & H)]; [repeat split|]. cbn [while_digits]. destruct (is_digit c) eqn:D; cbn [fst snd app forallb head_is]; [rewrite D; cbn [andb]; split; [f_equal; exact E|auto]|auto].
Qed.
Lemma low_split : forall s, exists w, s = w ++ after_low s /\ forallb is_low w = true /\ head_is is_low (after_low s) = false.
Proof.
  induction s as [|c s (w & E & F & H)]; [exists []; repeat split|]. cbn [after_low]. destruct (is_low c) eqn:D.
  - exists (c :: w). cbn [app forallb]. rewrite D. split; [f_equal; exact E|auto].
  - exists []. cbn [app forallb head_is]. auto.
Qed.
Lemma word_split : forall s, word_begins s = true -> exists c w, s = c :: w ++ after_low (tl s) /\ is_capital c = true /\ w <> [] /\ forallb is_low w = true /\ head_is is_low (after_low (tl s)) = false.
Proof.
  intros s H. unfold word_begins in H. apply andb_prop in H. destruct H as [H1 H2]. destruct s as [|c s]; [discriminate H1|]. cbn [head_is tl] in *. destruct (low_split s) as (w & E & F & N). exists c, w.
  split; [f_equal; exact E|]. split; [exact H1|]. split; [|auto]. intros ->. cbn [app] in E. rewrite <- E in N. congruence.
Qed.
Lemma words_split : forall n s, List.length s <= n -> exists l rest, s = camel_text l ++ rest /\ good_words l /\ word_begins rest = false /\ (l <> [] -> head_is is_low rest = false).
Proof.
  induction n as [|n IH]; intros s Ln.
  - exists [], s. destruct s; [|cbn in Ln; lia]. split; [reflexivity|]. split; [intros c w []|]. split; [reflexivity|congruence].
  - destruct (word_begins s) eqn:W.
    + destruct (word_split s W) as (c & w & E & Hc & Nw & Fw & Hl). destruct (IH (after_low (tl s))) as (l & rest & E2 & G & W2 & N2).
      { rewrite E in Ln. cbn [List.length] in Ln. rewrite app_length in Ln. lia. }
      exists ((c, w) :: l), rest. split; [rewrite E, E2 at 1; change (camel_text ((c, w) :: l)) with ((c :: w) ++ camel_text l); rewrite <- app_assoc; reflexivity|].
      split; [intros x v [I|I]; [injection I as <- <-; auto|apply G; exact I]|]. split; [exact W2|]. intros _. destruct l as [|y l]; [cbn [camel_text flat_map app] in E2; rewrite <- E2; exact Hl|apply N2; discriminate].
    + exists [], s. split; [reflexivity|]. split; [intros c w []|]. split; [exact W|congruence].
Qed.
Definition wordy (t : token) : Prop := match t with Ch _ | Ref (MatchM _) | Ref (Camel _) => True | _ => False end.
Lemma tokens_of : forall n s, List.length s <= n -> forallb word_or_blank s = true -> exists l, line_text l = s /\ all_stand l /\ Forall wordy l.
Proof.
  induction n as [|n IH]; intros s Ln S; [exists []; destruct s; [repeat split; constructor|cbn in Ln; lia]|]. destruct s as [|c s]; [exists []; repeat split; constructor|].
  destruct (begins (c :: s)) eqn:B.
  - rewrite begins_simple in B by exact S. destruct (numbered "m" (c :: s)) eqn:M.
    + unfold numbered in M. apply andb_prop in M. destruct M as [M1 M2]. apply starts_split in M1. cbn [List.length L list_ascii_of_string skipn app] in M1, M2. injection M1 as ->.
      destruct (while_digits_spec s) as (E & F & H). set (d := fst (while_digits s)) in *. set (r := snd (while_digits s)) in *. clearbody d r.
      assert (Nd : d <> []) by (intros ->; cbn [app] in E; subst r; congruence).
      assert (Lr : List.length r <= n) by (rewrite E in Ln; cbn [List.length] in Ln; rewrite app_length in Ln; lia).
      assert (Sr : forallb word_or_blank r = true) by (rewrite E in S; change ("m"%char :: d ++ r) with (("m"%char :: d) ++ r) in S; rewrite forallb_app in S; apply andb_prop in S; apply S).
      destruct (IH r Lr Sr) as (l & El & Al & Wl). exists (Ref (MatchM d) :: l). split; [|split; [split; [|exact Al]|constructor; [exact I|exact Wl]]].
      * change (line_text (Ref (MatchM d) :: l)) with ((L "m" ++ d) ++ line_text l). rewrite El, E. reflexivity.
      * cbn [stands good_ref follows_ref]. rewrite El, H. repeat split; assumption.
    + cbn [orb] in B. destruct (words_split (List.length (c :: s)) (c :: s) (le_n _)) as (l & rest & E & G & W & Nl). unfold camel_begins in B. apply andb_prop in B. destruct B as [B1 B2].
      assert (Ll : 2 <= List.length l).
      { destruct l as [|[c1 w1] [|x l]]; [cbn [camel_text flat_map app] in E; congruence| |cbn; lia]. exfalso. specialize (Nl ltac:(discriminate)). destruct (G c1 w1 (or_introl eq_refl)) as (Hc & Nw & Fw).
        change (camel_text [(c1, w1)] ++ rest) with ((c1 :: w1 ++ []) ++ rest) in E. rewrite app_nil_r in E. cbn [app] in E. injection E as -> ->. cbn [tl] in B2. rewrite after_low_spec in B2 by assumption. congruence. }
      assert (Lr : List.length rest <= n).
      { rewrite E in Ln. destruct l as [|[c1 w1] l]; [cbn in Ll; lia|]. rewrite app_length in Ln. cbn [camel_text flat_map fst snd app List.length] in Ln. lia. }
      assert (Sr : forallb word_or_blank rest = true) by (rewrite E, forallb_app in S; apply andb_prop in S; apply S).
      destruct (IH rest Lr Sr) as (k & Ek & Ak & Wk). exists (Ref (Camel l) :: k). split; [|split; [split; [|exact Ak]|constructor; [exact I|exact Wk]]].
      * change (line_text (Ref (Camel l) :: k)) with (camel_text l ++ line_text k). rewrite Ek, E. reflexivity.
      * cbn [stands good_ref follows_ref]. rewrite Ek, Nl, W by (destruct l; [cbn in Ll; lia|discriminate]). repeat split; try assumption; eapply G; eassumption.
  - cbn [forallb] in S. apply andb_prop in S. destruct S as [Sc S]. destruct (IH s ltac:(cbn in Ln; lia) S) as (l & El & Al & Wl). exists (Ch c :: l). split; [|split; [split; [|exact Al]|constructor; [exact I|exact Wl]]].
    + change (line_text (Ch c :: l)) with (c :: line_text l). rewrite El. reflexivity.
    + cbn [stands]. rewrite El. split; [exact B|]. intros ->. discriminate Sc.
Qed.
Lemma simple_char : forall c, word_or_blank c = true -> c <> ascii_of_nat 10 /\ c <> ascii_of_nat 13 /\ c <> ":"%char /\ c <> ">"%char /\ escape_char c = [c] /\ c <> "<"%char.
Proof.
  intros c H. assert (N : forall d, word_or_blank d = false -> c <> d) by (intros d Hd ->; congruence). repeat split; try (apply N; reflexivity).
  destruct (HtmlProofs.escape_char_cases c) as [[-> _]|[[-> _]|[[-> _]|[_ E]]]]; [discriminate H|discriminate H|discriminate H|exact E].
Qed.
Lemma simple_in : forall s c, forallb word_or_blank s = true -> In c s -> word_or_blank c = true.
Proof. intros s c F I. rewrite forallb_forall in F. apply F. exact I. Qed.
Lemma simple_good : forall l s, line_text l = s -> all_stand l -> words_line s -> good_line l.
Proof.
  intros l s E A (N & S & H). split; [exact A|]. rewrite E. split; [|split].
  - destruct s as [|c s]; [reflexivity|]. cbn [head_is] in *. cbn [forallb] in S. apply andb_prop in S. destruct S as [Sc _]. destruct (simple_char c Sc) as (_ & _ & _ & G & _). rewrite Ascii.eqb_sym in H. rewrite H. apply Ascii.eqb_neq. exact G.
  - intros a X. assert (I : In ":"%char s) by (rewrite X; apply in_or_app; right; left; reflexivity). destruct (simple_char _ (simple_in s _ S I)) as (_ & _ & Z & _). apply Z. reflexivity.
  - intros c I. destruct (simple_char c (simple_in s c S I)) as (H1 & H2 & _). auto.
Qed.
Lemma simple_escape : forall s, forallb word_or_blank s = true -> escape s = s.
Proof.
  induction s as [|c s IH]; intro S; [reflexivity|]. cbn [forallb] in S. apply andb_prop in S. destruct S as [Sc S]. change (escape (c :: s)) with (escape_char c ++ escape s). rewrite IH by exact S. destruct (simple_char c Sc) as (_ & _ & _ & _ & -> & _). reflexivity.
Qed.
Definition is_ch (t : token) : bool := match t with Ch _ => true | _ => false end.
Lemma all_ch : forall w l o pend, forallb is_ch l = true -> line_shown w o (Some pend) l = Some ([], o, Some (pend ++ escape (line_text l))).
Proof.
  intros w. induction l as [|t l IH]; intros o pend H; [cbn; rewrite app_nil_r; reflexivity|]. cbn [forallb] in H. apply andb_prop in H. destruct H as [Ht H]. destruct t; try discriminate Ht.
  cbn [line_shown]; unfold more; cbn [app]. rewrite IH by exact H. cbn [app]. rewrite <- app_assoc. repeat f_equal. change (line_text (Ch c :: l)) with (c :: line_text l). change (escape (c :: line_text l)) with (escape_char c ++ escape (line_text l)).
  change (escape [c]) with (escape_char c ++ []). rewrite app_nil_r. reflexivity.
Qed.
Lemma all_ch0 : forall w l o, forallb is_ch l = true -> l <> [] -> line_shown w o None l = Some ([], o, Some (escape (line_text l))).
Proof.
  intros w [|t l] o H N; [congruence|]. cbn [forallb] in H. apply andb_prop in H. destruct H as [Ht H]. destruct t; try discriminate Ht. cbn [line_shown]; unfold more; cbn [app]. rewrite all_ch by exact H. cbn [app]. repeat f_equal.
  change (line_text (Ch c :: l)) with (c :: line_text l). change (escape (c :: line_text l)) with (escape_char c ++ escape (line_text l)). change (escape [c]) with (escape_char c ++ []). rewrite app_nil_r. reflexivity.
Qed.
Definition lts (s : str) : nat := count_occ ascii_dec s "<"%char.
Lemma wordy_shown : forall w l o pend, Forall wordy l -> exists out pend', line_shown w o pend l = Some (out, o, pend') /\ (forallb is_ch l = false -> 1 <= lts out).
Proof.
  intros w. induction l as [|t l IH]; intros o pend F; [exists [], pend; split; [reflexivity|discriminate]|]. inversion F as [|? ? Wt F']; subst.
  destruct t as [c|m|r|m|r]; try (destruct Wt; fail).
  - destruct (IH o (more pend (escape [c])) F') as (out & p' & E & C). exists out, p'. cbn [line_shown]. rewrite E. split; [reflexivity|exact C].
  - destruct (IH o None F') as (out & p' & E & _). exists ((settled pend ++ ref_shown w r) ++ out), p'. cbn [line_shown]. rewrite E. split; [reflexivity|]. intros _. unfold lts. rewrite !count_occ_app.
    assert (X : 1 <= count_occ ascii_dec (ref_shown w r) "<"%char) by (destruct r; try (destruct Wt; fail); unfold ref_shown, link; rewrite count_occ_app; cbn; lia). lia.
Qed.
Lemma inside_begins : forall a b, numbered "m" b = true \/ camel_begins b = true -> match_inside (a ++ b) \/ name_inside (a ++ b).
Proof.
  intros a b [H|H].
  - left. unfold numbered in H. apply andb_prop in H. destruct H as [H1 H2]. apply starts_split in H1. cbn [List.length L list_ascii_of_string skipn app] in *. destruct b as [|m b]; [discriminate H2|]. cbn [skipn] in *. destruct b as [|d b]; [discriminate H2|].
    exists a, d, b. split; [f_equal; exact H1|exact H2].
  - right. unfold camel_begins in H. apply andb_prop in H. destruct H as [H1 H2]. destruct (word_split b H1) as (c & w & E & Hc & Nw & Fw & _). destruct (word_split _ H2) as (d & v & E2 & Hd & Nv & Fv & _). destruct v as [|x v]; [congruence|].
    cbn [forallb] in Fv. apply andb_prop in Fv. destruct Fv as [Fx _]. exists a, c, w, d, x, (v ++ after_low (tl (after_low (tl b)))). split; [rewrite E at 1; rewrite E2 at 1; reflexivity|]. repeat split; assumption.
Qed.
Lemma begins_inside : forall s, match_inside s \/ name_inside s -> exists a b, s = a ++ b /\ (numbered "m" b = true \/ camel_begins b = true) /\ b <> [].
Proof.
  intros s [(a & d & b & -> & D)|(a & c & w & d & x & b & -> & Hc & Nw & Fw & Hd & Hx)].
  - exists a, ("m"%char :: d :: b). split; [reflexivity|]. split; [left; unfold numbered; cbn; exact D|discriminate].
  - exists a, (c :: w ++ d :: x :: b). split; [reflexivity|]. split; [|discriminate]. right. unfold camel_begins. cbn [tl]. rewrite after_low_spec; [|exact Fw|cbn [head_is]; apply capital_low; exact Hd].
    destruct w as [|y w]; [congruence|]. cbn [forallb] in Fw. apply andb_prop in Fw. destruct Fw as [Fy _]. unfold word_begins. cbn [head_is tl app]. rewrite Hc, Fy, Hd, Hx. reflexivity.
Qed.
Lemma stand_suffix : forall l, forallb is_ch l = true -> all_stand l -> forall a b, line_text l = a ++ b -> b <> [] -> begins b = false.
Proof.
  induction l as [|t l IH]; intros H A a b E N; [cbn in E; symmetry in E; apply app_eq_nil in E; destruct E; congruence|]. cbn [forallb] in H. apply andb_prop in H. destruct H as [Ht H]. destruct t as [c| | | |]; try discriminate Ht. destruct A as [[A1 _] A].
  change (line_text (Ch c :: l)) with (c :: line_text l) in E. destruct a as [|x a]; cbn [app] in E; [subst b; exact A1|]. injection E as _ E. eapply IH; eassumption.
Qed.
Lemma ch_iff : forall l s, line_text l = s -> all_stand l -> Forall wordy l -> forallb word_or_blank s = true -> (forallb is_ch l = true <-> ~ (match_inside s \/ name_inside s)).
Proof.
  intros l s E A W S. split.
  - intros H I. destruct (begins_inside s I) as (a & b & Eb & Hb & Nb). rewrite <- E in Eb. pose proof (stand_suffix l H A a b Eb Nb) as X. rewrite begins_simple in X; [|rewrite <- E, Eb, forallb_app in S; apply andb_prop in S; apply S].
    apply orb_false_iff in X. destruct X. destruct Hb; congruence.
  - intros H. destruct (forallb is_ch l) eqn:F; [reflexivity|]. exfalso. apply H. clear H. revert s E S.
    induction l as [|t l IH]; intros s E S; [discriminate F|]. inversion W as [|? ? Wt Wl]; subst. destruct A as [St A]. cbn [forallb] in F. change (line_text (t :: l)) with (token_text t ++ line_text l) in *.
    rewrite forallb_app in S. apply andb_prop in S. destruct S as [S1 S2]. destruct t as [c|m|r|m|r]; try (destruct Wt; fail).
    + cbn [is_ch andb] in F. destruct (IH A Wl F _ eq_refl S2) as [(a & d & b & X & Y)|(a & c1 & w & d & x & b & X & Y)]; [left; exists (c :: a), d, b|right; exists (c :: a), c1, w, d, x, b]; (split; [cbn [token_text app]; f_equal; exact X|exact Y]).
    + apply (inside_begins []). cbn [token_text] in *. cbn [stands] in St. destruct St as [G Fl]. destruct r; try (destruct Wt; fail); cbn [good_ref ref_text] in *.
      * left. destruct G as [N D]. destruct n as [|d n]; [congruence|]. cbn [forallb] in D. apply andb_prop in D. destruct D as [D _]. unfold numbered. cbn. exact D.
      * right. destruct G as [L2 G]. destruct words as [|[c w] [|[d v] words]]; [cbn in L2; lia|cbn in L2; lia|]. destruct (G c w (or_introl eq_refl)) as (Hc & Nw & Fw). destruct (G d v (or_intror (or_introl eq_refl))) as (Hd & Nv & Fv).
        change (camel_begins (((c :: w) ++ (d :: v) ++ camel_text words) ++ line_text l) = true). rewrite <- !app_assoc. cbn [app]. unfold camel_begins. cbn [tl].
        rewrite after_low_spec; [|exact Fw|cbn [head_is]; apply capital_low; exact Hd]. destruct w as [|y w]; [congruence|]. destruct v as [|z v]; [congruence|]. cbn [forallb] in Fw, Fv. apply andb_prop in Fw, Fv. destruct Fw as [Fy _], Fv as [Fz _].
        unfold word_begins. cbn [head_is tl app]. rewrite Hc, Fy, Hd, Fz. reflexivity.
Qed.
Section Plain.
Variables (order : list string) (wikipath now : str) (urlencode : list (string * str) -> str) (analysis : str -> res (list table)) (rst : str -> res str).
Notation page := (html order wikipath now urlencode analysis rst).
Lemma words_shown : forall s, words_line s -> (page (lines_text [s]) = Ok (paragraph s) <-> ~ (match_inside s \/ name_inside s)).
Proof.
  intros s Ws. pose proof Ws as (N & S & H). destruct (tokens_of (List.length s) s (le_n _) S) as (l & E & A & W). rewrite <- (ch_iff l s E A W S).
  assert (Nl : l <> []) by (intros ->; cbn in E; congruence). pose proof (simple_good l s E A Ws) as G.
  assert (P : forall out, page_shown wikipath None [l] = Some out -> page (lines_text [s]) = Ok out).
  { intros out Ho. rewrite <- E. apply (page_is_shown order wikipath now urlencode analysis rst [l] out); [constructor; [exact G|constructor]|exact Ho]. }
  split.
  - intro X. destruct (forallb is_ch l) eqn:F; [reflexivity|]. exfalso. destruct (wordy_shown wikipath l [] None W) as (out & pend' & Eo & C). specialize (C F).
    assert (Po : page_shown wikipath None [l] = Some ((L "<div>" ++ ShowSpec.nl) ++ out ++ ended [] pend')).
    { destruct l as [|t l]; [congruence|]. cbn [page_shown]. rewrite Eo. reflexivity. }
    rewrite (P _ Po) in X. assert (Y : lts ((L "<div>" ++ ShowSpec.nl) ++ out ++ ended [] pend') = lts (paragraph s)) by congruence.
    unfold lts, paragraph, ended in Y. cbn [flat_map] in Y. rewrite !count_occ_app in Y. assert (Z : count_occ ascii_dec s "<"%char = 0).
    { apply count_occ_not_In. intro I. destruct (simple_char _ (simple_in s _ S I)) as (_ & _ & _ & _ & _ & Z). apply Z. reflexivity. }
    rewrite Z in Y. unfold lts in C. cbn in Y. lia.
  - intro F. assert (Po : page_shown wikipath None [l] = Some (paragraph s)); [|exact (P _ Po)]. destruct l as [|t l]; [congruence|]. cbn [page_shown]. rewrite all_ch0 by (assumption || discriminate). rewrite E, simple_escape by exact S. unfold ended, paragraph. cbn [settled flat_map app]. rewrite <- !app_assoc. reflexivity.
Qed.
Lemma lines_joined : forall s ls, (forall l, In l (s :: ls) -> words_line l /\ ~ match_inside l /\ ~ name_inside l) -> page (lines_text (s :: ls)) = Ok (paragraph (List.concat (s :: ls))).
Proof.
  intros s ls H.
  assert (T : forall ls, (forall l, In l ls -> words_line l /\ ~ match_inside l /\ ~ name_inside l) -> exists ts, map line_text ts = ls /\ Forall good_line ts /\ Forall (fun t => t <> [] /\ forallb is_ch t = true) ts).
  { clear. induction ls as [|l ls IH]; intro H; [exists []; repeat constructor|]. destruct (IH (fun x I => H x (or_intror I))) as (ts & E & G & F). destruct (H l (or_introl eq_refl)) as (Ws & N1 & N2). pose proof Ws as (N & S & Hh).
    destruct (tokens_of (List.length l) l (le_n _) S) as (t & Et & A & W). exists (t :: ts). split; [cbn [map]; congruence|]. split; [constructor; [eapply simple_good; eassumption|exact G]|]. constructor; [|exact F].
    split; [intros ->; cbn in Et; congruence|]. apply (ch_iff t l Et A W S). tauto. }
  destruct (T (s :: ls) H) as (ts & E & G & F). rewrite <- E. apply page_is_shown; [exact G|].
  assert (R : forall ts p, Forall (fun t => t <> [] /\ forallb is_ch t = true) ts -> (forall l, In l (map line_text ts) -> forallb word_or_blank l = true) ->
    page_shown wikipath (Some ([], Some p)) ts = Some ((p ++ List.concat (map line_text ts)) ++ ShowSpec.nl ++ L "</div>" ++ ShowSpec.nl)).
  { clear. induction ts as [|t ts IH]; intros p F S; [cbn [page_shown ended settled flat_map map List.concat app]; unfold ended; cbn [settled flat_map app]; rewrite app_nil_r, <- app_assoc; reflexivity|].
    inversion F as [|? ? [N C] F']; subst. destruct t as [|x t]; [congruence|]. cbn [page_shown]. rewrite all_ch by exact C. rewrite IH; [|exact F'|intros l I; apply S; right; exact I].
    rewrite simple_escape by (apply S; left; reflexivity). cbn [map List.concat app]. rewrite <- !app_assoc. reflexivity. }
  assert (Sall : forall l, In l (map line_text ts) -> forallb word_or_blank l = true) by (intros l I; rewrite E in I; apply (H l I)).
  destruct ts as [|t ts]; [discriminate E|]. inversion F as [|? ? [N C] F']; subst. destruct t as [|x t]; [congruence|]. cbn [page_shown]. rewrite all_ch0 by (assumption || discriminate).
  rewrite R; [|exact F'|intros l I; apply Sall; right; exact I]. rewrite simple_escape by (apply Sall; left; reflexivity). unfold paragraph. cbn [map List.concat app]. rewrite <- !app_assoc. reflexivity.
Qed.
End Plain.

Lemma page_shown_as_written : forall design_order wikipath now urlencode analysis rst ls out, Forall good_line ls -> page_shown wikipath None ls = Some out ->
  html design_order wikipath now urlencode analysis rst (lines_text (map line_text ls)) = Ok out.
Proof. intros. apply page_is_shown; assumption. Qed.
Lemma words_refuted : exists s out, words_line s /\ forall design_order wikipath now urlencode analysis rst,
  html design_order wikipath now urlencode analysis rst (lines_text [s]) = Ok out /\ out <> paragraph s
  /\ out = paragraph (L "in roo" ++ ShowSpec.nl ++ L "<a" ++ tag_attr "class" (L "match") ++ tag_attr "title" (L "title") ++ tag_attr "href" (L "/match/12") ++ L ">" ++ ShowSpec.nl ++ L "m12" ++ ShowSpec.nl ++ L "</a>").
Proof.
  exists (L "in room12"). eexists. split; [repeat split; discriminate|]. intros. split; [|split; [|reflexivity]].
  - assert (E : [L "in room12"] = map line_text [[Ch "i"; Ch "n"; Ch " "; Ch "r"; Ch "o"; Ch "o"; Ref (MatchM (L "12"))]]) by reflexivity. rewrite E. apply page_shown_as_written; [|reflexivity].
    constructor; [|constructor]. apply (simple_good _ (L "in room12")); [reflexivity| |repeat split; discriminate]. cbn [all_stand stands]. repeat split; try discriminate; vm_compute; reflexivity.
  - discriminate.
Qed.
Lemma words_iff : forall design_order wikipath now urlencode analysis rst s, words_line s ->
  (html design_order wikipath now urlencode analysis rst (lines_text [s]) = Ok (paragraph s) <-> ~ match_inside s /\ ~ name_inside s).
Proof. intros. rewrite words_shown by assumption. tauto. Qed.
Lemma lines_are_joined : forall design_order wikipath now urlencode analysis rst s ls, (forall l, In l (s :: ls) -> words_line l /\ ~ match_inside l /\ ~ name_inside l) ->
  html design_order wikipath now urlencode analysis rst (lines_text (s :: ls)) = Ok (paragraph (List.concat (s :: ls))).
Proof. intros. apply lines_joined; assumption. Qed.
