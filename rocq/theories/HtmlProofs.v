(* Proofs about html.py *)
From Verif Require Import Py PyFacts HtmlModel HtmlSpec.

Lemma escape_char_cases : forall c,
  (c = "<"%char /\ escape_char c = L "&lt;") \/ (c = ">"%char /\ escape_char c = L "&gt;") \/ (c = "&"%char /\ escape_char c = L "&amp;")
  \/ (~ special c /\ escape_char c = [c]).
Proof.
  intro c.
  destruct (ascii_dec c "<") as [->|n1]; [left; auto|].
  destruct (ascii_dec c ">") as [->|n2]; [right; left; auto|].
  destruct (ascii_dec c "&") as [->|n3]; [right; right; left; auto|].
  right; right; right. split; [intros [H|[H|H]]; contradiction|].
  destruct c as [[] [] [] [] [] [] [] []]; try reflexivity; contradiction.
Qed.
Lemma unescape_cons : forall c s, c <> "&"%char -> unescape (c :: s) = c :: unescape s.
Proof. intros c s n. destruct c as [[] [] [] [] [] [] [] []]; try reflexivity; contradiction. Qed.
Lemma unescape_char : forall c s, unescape (escape_char c ++ s) = c :: unescape s.
Proof.
  intros c s. destruct (escape_char_cases c) as [[-> ->]|[[-> ->]|[[-> ->]|[n ->]]]]; try reflexivity.
  apply unescape_cons. intro H. apply n. unfold special. auto.
Qed.
Lemma unescape_escape : forall s, unescape (escape s) = s.
Proof. induction s as [|c s IH]; [reflexivity|]. change (escape (c :: s)) with (escape_char c ++ escape s). rewrite unescape_char, IH. reflexivity. Qed.
Lemma escape_app : forall s t, escape (s ++ t) = escape s ++ escape t.
Proof. intros s t. apply flat_map_app. Qed.
Lemma escape_clean : forall s c, In c (escape s) -> c <> "<"%char /\ c <> ">"%char.
Proof.
  intros s c H. apply in_flat_map in H. destruct H as (x & _ & H).
  destruct (escape_char_cases x) as [[-> E]|[[-> E]|[[-> E]|[n E]]]]; rewrite E in H; cbn in H;
    repeat (destruct H as [<-|H]; [split; try discriminate|]); try contradiction.
  - intros ->. apply n. left. reflexivity.
  - intros ->. apply n. right. left. reflexivity.
Qed.
Lemma escape_amp : forall s a b, escape s = a ++ "&"%char :: b -> exists r, b = L "lt;" ++ r \/ b = L "gt;" ++ r \/ b = L "amp;" ++ r.
Proof.
  induction s as [|c s IH]; intros a b H; [destruct a; discriminate|].
  change (escape (c :: s)) with (escape_char c ++ escape s) in H.
  assert (H0 : forall w a, escape_char c = "&"%char :: w -> ~ In "&"%char w -> ("&"%char :: w) ++ escape s = a ++ "&"%char :: b ->
     b = w ++ escape s \/ exists a', escape s = a' ++ "&"%char :: b).
  { clear. intros w a _ n H. destruct a as [|x a]; cbn in H.
    - injection H as H. left. auto.
    - injection H as _ H. right. revert a n H. induction w as [|y w IH]; intros a n H; cbn in H; [exists a; exact H|].
      destruct a as [|z a]; cbn in H.
      + injection H as -> _. exfalso. apply n. left. reflexivity.
      + injection H as _ H. apply (IH a); [intro; apply n; right; assumption|exact H]. }
  destruct (escape_char_cases c) as [[-> E]|[[-> E]|[[-> E]|[n E]]]]; rewrite E in *.
  - destruct (H0 (L "lt;") a) as [->|[a' H1]]; [reflexivity|cbn; intuition discriminate|exact H|exists (escape s); auto|apply (IH a' b H1)].
  - destruct (H0 (L "gt;") a) as [->|[a' H1]]; [reflexivity|cbn; intuition discriminate|exact H|exists (escape s); auto|apply (IH a' b H1)].
  - destruct (H0 (L "amp;") a) as [->|[a' H1]]; [reflexivity|cbn; intuition discriminate|exact H|exists (escape s); auto|apply (IH a' b H1)].
  - destruct a as [|x a]; cbn in H; injection H as H1 H2.
    + exfalso. apply n. subst c. unfold special. auto.
    + apply (IH a b H2).
Qed.
Lemma escaping : forall s,
  (forall c, In c (escape s) -> c <> "<"%char /\ c <> ">"%char)
  /\ (forall a b, escape s = a ++ "&"%char :: b -> exists r, b = L "lt;" ++ r \/ b = L "gt;" ++ r \/ b = L "amp;" ++ r)
  /\ unescape (escape s) = s
  /\ (forall t, escape (s ++ t) = escape s ++ escape t)
  /\ (escape s = s <-> forall c, In c s -> ~ special c).
Proof.
  intro s. split; [exact (escape_clean s)|]. split; [exact (escape_amp s)|]. split; [exact (unescape_escape s)|].
  split; [exact (escape_app s)|].
  induction s as [|c s IH]; [split; [intros _ c []|reflexivity]|].
  change (escape (c :: s)) with (escape_char c ++ escape s).
  assert (len : forall s, (List.length s <= List.length (escape s))%nat).
  { clear. induction s as [|c s IH]; [apply le_n|]. change (escape (c :: s)) with (escape_char c ++ escape s). rewrite app_length.
    destruct (escape_char_cases c) as [[-> E]|[[-> E]|[[-> E]|[n E]]]]; rewrite E; cbn [List.length L list_ascii_of_string]; lia. }
  assert (no : forall w, (1 < List.length w)%nat -> w ++ escape s <> c :: s).
  { intros w H E. apply (f_equal (@List.length _)) in E. rewrite app_length in E. cbn [List.length] in E. specialize (len s). lia. }
  split.
  - intros E. destruct (escape_char_cases c) as [[-> E0]|[[-> E0]|[[-> E0]|[n E0]]]]; rewrite E0 in E;
      try (exfalso; revert E; apply no; cbn; lia).
    injection E as E. intros x [<-|H]; [exact n|]. apply (proj1 IH E x H).
  - intros H. destruct (escape_char_cases c) as [[-> E0]|[[-> E0]|[[-> E0]|[n E0]]]];
      try solve [exfalso; apply (H _ (or_introl eq_refl)); unfold special; auto].
    rewrite E0. cbn. f_equal. apply (proj2 IH). intros x Hx. apply H. right. exact Hx.
Qed.

(* ---- nomalize ---- *)
Definition breaks (c : ascii) : str := if Ascii.eqb c ">" then [">"%char; newline] else [c].
Lemma nomalize_eq : forall s, nomalize s = flat_map breaks (unbroken s).
Proof. reflexivity. Qed.
Lemma unbroken_app : forall a b, unbroken (a ++ b) = unbroken a ++ unbroken b.
Proof. intros. apply filter_app. Qed.
Lemma unbroken_idem : forall s, unbroken (unbroken s) = unbroken s.
Proof.
  assert (st : forall c r, unbroken (c :: r) = if negb (Ascii.eqb c line_break) then c :: unbroken r else unbroken r) by reflexivity.
  induction s as [|c s IH]; [reflexivity|]. rewrite st. destruct (negb (Ascii.eqb c line_break)) eqn:E; [|exact IH].
  rewrite st, E, IH. reflexivity.
Qed.
Lemma unbroken_nomalize : forall s, unbroken (nomalize s) = unbroken s.
Proof.
  intro s. rewrite nomalize_eq. rewrite <- (unbroken_idem s) at 2. induction (unbroken s) as [|c r IH]; [reflexivity|].
  change (flat_map breaks (c :: r)) with (breaks c ++ flat_map breaks r). rewrite unbroken_app, IH.
  change (unbroken (c :: r)) with (if negb (Ascii.eqb c line_break) then c :: unbroken r else unbroken r).
  unfold breaks. destruct (Ascii.eqb_spec c ">") as [->|n]; [reflexivity|].
  change (unbroken [c]) with (if negb (Ascii.eqb c line_break) then [c] else []). destruct (negb (Ascii.eqb c line_break)); reflexivity.
Qed.
Lemma breaks_gt : forall r a b, ~ In newline r -> flat_map breaks r = a ++ ">"%char :: b -> exists b', b = newline :: b'.
Proof.
  induction r as [|c r IH]; intros a b n H; [destruct a; discriminate|].
  change (flat_map breaks (c :: r)) with (breaks c ++ flat_map breaks r) in H.
  assert (n' : ~ In newline r) by (intro; apply n; right; assumption).
  unfold breaks in H. destruct (Ascii.eqb_spec c ">") as [->|n1]; cbn in H.
  - destruct a as [|x a]; cbn in H; injection H; [intros <-; eauto|]. intros H1 _.
    destruct a as [|y a]; cbn in H1; [injection H1; intros; discriminate|]. injection H1 as _ H1. apply (IH a b n' H1).
  - destruct a as [|x a]; cbn in H; injection H; [intros; contradiction|]. intros H1 _. apply (IH a b n' H1).
Qed.
Lemma breaks_nl : forall r a b, ~ In newline r -> flat_map breaks r = a ++ newline :: b -> exists a', a = a' ++ [">"%char].
Proof.
  induction r as [|c r IH]; intros a b n H; [destruct a; discriminate|].
  change (flat_map breaks (c :: r)) with (breaks c ++ flat_map breaks r) in H.
  assert (n' : ~ In newline r) by (intro; apply n; right; assumption).
  unfold breaks in H. destruct (Ascii.eqb_spec c ">") as [->|n1]; cbn in H.
  - destruct a as [|x a]; cbn in H; [injection H; intros; discriminate|]. injection H as <- H1.
    destruct a as [|y a]; cbn in H1; [exists []; reflexivity|]. injection H1 as <- H1.
    destruct (IH a b n' H1) as [a' ->]. exists (">"%char :: newline :: a'). reflexivity.
  - destruct a as [|x a]; cbn in H; [injection H as -> _; exfalso; apply n; left; reflexivity|]. injection H as <- H1.
    destruct (IH a b n' H1) as [a' ->]. exists (c :: a'). reflexivity.
Qed.
Lemma unbroken_none : forall s, ~ In newline (unbroken s).
Proof. intros s H. apply filter_In in H. destruct H as [_ H]. discriminate. Qed.
Lemma normal_form : forall s t,
  (nomalize s = nomalize t <-> unbroken s = unbroken t)
  /\ nomalize (nomalize s) = nomalize s
  /\ (forall a b, nomalize s = a ++ ">"%char :: b -> exists b', b = line_break :: b')
  /\ (forall a b, nomalize s = a ++ line_break :: b -> exists a', a = a' ++ [">"%char]).
Proof.
  intros s t. split; [split; intro H|split; [|split]].
  - rewrite <- (unbroken_nomalize s), H. apply unbroken_nomalize.
  - rewrite !nomalize_eq, H. reflexivity.
  - rewrite (nomalize_eq (nomalize s)), unbroken_nomalize. reflexivity.
  - intros a b H. apply (breaks_gt (unbroken s) a b (unbroken_none s) H).
  - intros a b H. apply (breaks_nl (unbroken s) a b (unbroken_none s) H).
Qed.
