(* The XML of a tree reads back as the tree. *)
From Verif Require Import Py PyFacts Dict DictFacts UtilModel BoardModel ImageModel ImageSpec ImageCss ImageTree XmlModel XmlSpec.
From Coq Require Import Permutation.
Open Scope string_scope.
Open Scope list_scope.
Open Scope Z_scope.

(* ---- the reader ---- *)
Arguments blank _ : simpl never.
Arguments legal _ : simpl never.
Arguments name_char _ : simpl never.
Arguments plain_char _ : simpl never.
Arguments bare_char _ : simpl never.
Lemma span_all p a c r : forallb p a = true -> p c = false -> span p (a ++ c :: r) = (a, c :: r).
Proof. intros A B. induction a as [|x a IH]; cbn in *; [rewrite B; reflexivity|]. apply andb_prop in A as (X & A). rewrite X, (IH A). reflexivity. Qed.
Lemma begin_app t r : beginning t (t ++ r) = Some r.
Proof. induction t as [|c t IH]; cbn; [destruct r; reflexivity|]. rewrite Ascii.eqb_refl. exact IH. Qed.
Lemma skip_blank a c r : forallb blank a = true -> blank c = false -> skip (a ++ c :: r) = c :: r.
Proof. intros A B. unfold skip. rewrite span_all by assumption. reflexivity. Qed.
Lemma skip_none c r : blank c = false -> skip (c :: r) = c :: r.
Proof. intros B. unfold skip. cbn. rewrite B. reflexivity. Qed.
Lemma skip_end a : forallb blank a = true -> skip a = [].
Proof. unfold skip. induction a as [|x a IH]; cbn; [reflexivity|]. intros A. apply andb_prop in A as (X & A). rewrite X. exact (IH A). Qed.
Lemma skip_over a s : forallb blank a = true -> skip (a ++ s) = skip s.
Proof. unfold skip. induction a as [|x a IH]; cbn; [reflexivity|]. intros A. apply andb_prop in A as (X & A). rewrite X. exact (IH A). Qed.
Lemma spaces_blank n : forallb blank (spaces n) = true.
Proof. induction n; [reflexivity|]. exact IHn. Qed.
Lemma forallb_rev {X} (p : X -> bool) l : forallb p l = true -> forallb p (rev l) = true.
Proof. rewrite !forallb_forall. intros H x I. apply H, in_rev, I. Qed.
Lemma trim_around a s b : forallb blank a = true -> forallb blank b = true -> trim (a ++ s ++ b) = trim s.
Proof.
  intros A B. unfold trim. rewrite skip_over by exact A. destruct (forallb blank s) eqn:E.
  - rewrite (skip_end s) by exact E. rewrite (skip_end (s ++ b)); [reflexivity|]. rewrite forallb_app, E. exact B.
  - assert (X : exists u c v, s = u ++ c :: v /\ forallb blank u = true /\ blank c = false).
    { clear -E. induction s as [|c s IH]; [discriminate|]. cbn in E. destruct (blank c) eqn:C.
      - destruct (IH E) as (u & d & v & -> & U & D). exists (c :: u), d, v. cbn. rewrite C, U. auto.
      - exists [], c, s. auto. }
    destruct X as (u & c & v & -> & U & C). rewrite <- app_assoc. cbn [app]. rewrite !skip_blank by assumption.
    change (c :: v ++ b) with ((c :: v) ++ b). rewrite rev_app_distr, skip_over by (apply forallb_rev, B). reflexivity.
Qed.
Lemma data_around a s b : forallb blank a = true -> forallb blank b = true -> data (a ++ s ++ b) = data s.
Proof. intros A B. unfold data. rewrite trim_around by assumption. reflexivity. Qed.
Lemma data_behind s b : forallb blank b = true -> data (s ++ b) = data s.
Proof. exact (data_around [] s b eq_refl). Qed.
Lemma data_blank a : forallb blank a = true -> data a = [].
Proof. intros A. unfold data, trim. rewrite (skip_end a A). reflexivity. Qed.
Lemma data_text s : bare_text s = true -> data s = [inr s].
Proof.
  unfold bare_text. intros H. apply andb_prop in H as (H & N). apply andb_prop in H as (_ & T). apply str_eqb_eq in T. unfold data. rewrite T. destruct s; [discriminate|reflexivity].
Qed.

(* ---- tags ---- *)
Definition plain_attr (nv : str * str) : Prop := is_name (fst nv) = true /\ bare_value (snd nv) = true.
Definition write_attr (nv : str * str) : str := L " " ++ fst nv ++ L "=" ++ [quote] ++ snd nv ++ [quote].
Lemma name_chars n : is_name n = true -> forallb name_char n = true.
Proof. destruct n as [|c n]; [discriminate|]. unfold is_name. intros H. apply andb_prop in H as (_ & H). exact H. Qed.
Lemma name_first n : is_name n = true -> exists c r, n = c :: r /\ name_char c = true.
Proof. destruct n as [|c n]; [discriminate|]. intros H. apply name_chars in H. cbn in H. apply andb_prop in H as (H & _). exists c, n. auto. Qed.
Lemma all_ascii (P : ascii -> bool) : forallb (fun n => P (ascii_of_nat n)) (seq 0 256) = true -> forall c, P c = true.
Proof.
  intros H c. rewrite forallb_forall in H. specialize (H (nat_of_ascii c)). rewrite ascii_nat_embedding in H. apply H, in_seq.
  pose proof (nat_ascii_bounded c). lia.
Qed.
Lemma name_char_solid c : name_char c = true -> blank c = false /\ Ascii.eqb c ">" = false /\ legal c = true /\ Ascii.eqb c "<" = false.
Proof.
  assert (X : (negb (name_char c) || (negb (blank c) && negb (Ascii.eqb c ">") && legal c && negb (Ascii.eqb c "<"))) = true).
  { revert c. apply all_ascii. vm_compute. reflexivity. }
  intros H. rewrite H in X. cbn in X. apply andb_prop in X as (X & D). apply andb_prop in X as (X & C). apply andb_prop in X as (A & B).
  repeat split; try (apply negb_true_iff; assumption). exact C.
Qed.
Lemma value_char c : bare_char c && negb (Ascii.eqb c quote) = true -> plain_char c = true /\ negb (Ascii.eqb c quote) = true /\ (if blank c then ascii_of_nat 32 else c) = c /\ legal c = true.
Proof.
  assert (X : (negb (bare_char c && negb (Ascii.eqb c quote)) || (plain_char c && negb (Ascii.eqb c quote) && Ascii.eqb (if blank c then ascii_of_nat 32 else c) c && legal c)) = true).
  { revert c. apply all_ascii. vm_compute. reflexivity. }
  intros H. rewrite H in X. cbn in X. apply andb_prop in X as (X & D). apply andb_prop in X as (X & C). apply andb_prop in X as (A & B). apply Ascii.eqb_eq in C. auto.
Qed.
Lemma value_chars v : bare_value v = true -> forallb plain_char v = true /\ forallb (fun c => negb (Ascii.eqb c quote)) v = true /\
  map (fun c => if blank c then ascii_of_nat 32 else c) v = v /\ forallb legal v = true.
Proof.
  unfold bare_value. induction v as [|c v IH]; [intros; repeat split|]. cbn [forallb map]. intros H. apply andb_prop in H as (C & H). destruct (IH H) as (A1 & A2 & A3 & A4).
  destruct (value_char c C) as (B1 & B2 & B3 & B4). rewrite A1, A2, A3, A4, B1, B2, B3, B4. auto.
Qed.
Lemma tag_rest_ok : forall l r fuel, (List.length l < fuel)%nat -> Forall plain_attr l -> tag_rest fuel (flat_map write_attr l ++ L ">" ++ r) = Some (l, r).
Proof.
  induction l as [|(n, v) l IH]; intros r [|fuel] F P; try (cbn in F; lia).
  - reflexivity.
  - inversion P as [|? ? (N & V) P']; subst. cbn [fst snd] in N, V. cbn [flat_map]. unfold write_attr at 1. cbn [fst snd].
    destruct (name_first n N) as (c & n' & En & C). destruct (name_char_solid c C) as (C1 & C2 & C3 & C4).
    destruct (value_chars v V) as (V1 & V2 & V3 & V4).
    set (tail := flat_map write_attr l ++ L ">" ++ r).
    assert (E : (L " " ++ n ++ L "=" ++ [quote] ++ v ++ [quote]) ++ flat_map write_attr l ++ L ">" ++ r = ascii_of_nat 32 :: n ++ L "=" ++ [quote] ++ v ++ quote :: tail).
    { rewrite <- !app_assoc. cbn [app L list_ascii_of_string]. reflexivity. }
    rewrite <- app_assoc, E. clear E. cbn [tag_rest].
    assert (Sk : skip (ascii_of_nat 32 :: n ++ L "=" ++ [quote] ++ v ++ quote :: tail) = n ++ L "=" ++ [quote] ++ v ++ quote :: tail).
    { rewrite En. cbn [app]. exact (skip_blank [ascii_of_nat 32] c _ eq_refl C1). }
    rewrite !Sk. clear Sk.
    assert (B : beginning (L ">") (n ++ L "=" ++ [quote] ++ v ++ quote :: tail) = None).
    { rewrite En. cbn [L list_ascii_of_string app beginning]. rewrite Ascii.eqb_sym, C2. reflexivity. }
    rewrite B. change (L "=" ++ [quote] ++ v ++ quote :: tail) with (ascii_of_nat 61 :: quote :: v ++ quote :: tail).
    rewrite (span_all name_char n) by (auto using name_chars). cbn [fst snd]. rewrite N.
    change (blank (ascii_of_nat 32)) with true. cbv iota.
    change (beginning [ascii_of_nat 61; quote] (ascii_of_nat 61 :: quote :: v ++ quote :: tail)) with (Some (v ++ quote :: tail)). cbn [opt].
    rewrite (span_all _ v) by (auto using Ascii.eqb_refl). cbn [fst snd]. rewrite V1, V3.
    change (beginning [quote] (quote :: tail)) with (Some tail). cbn [opt]. unfold tail. rewrite IH by (cbn in F; auto; lia). reflexivity.
Qed.

(* ---- elements ---- *)
Lemma plain_not_open p : forallb plain_char p = true -> forallb (fun c => negb (Ascii.eqb c "<")) p = true.
Proof.
  rewrite !forallb_forall. intros H c I. specialize (H c I). revert H. unfold plain_char, among, L. cbn [list_ascii_of_string existsb].
  destruct (Ascii.eqb c "<"); [discriminate|reflexivity].
Qed.
Lemma blank_plain p : forallb blank p = true -> forallb plain_char p = true.
Proof.
  rewrite !forallb_forall. intros H c I. specialize (H c I).
  assert (X : (negb (blank c) || plain_char c) = true) by (clear; revert c; apply all_ascii; vm_compute; reflexivity). rewrite H in X. exact X.
Qed.
Lemma bare_plain s : bare_text s = true -> forallb plain_char s = true /\ forallb legal s = true.
Proof.
  unfold bare_text. intros H. apply andb_prop in H as (H & _). apply andb_prop in H as (H & _). rewrite !forallb_forall in *.
  assert (X : forall c, (negb (bare_char c) || (plain_char c && legal c)) = true) by (apply all_ascii; vm_compute; reflexivity).
  split; intros c I; specialize (X c); rewrite (H c I) in X; apply andb_prop in X as (A & B); assumption.
Qed.
Lemma ename_name k : is_name (ename k) = true.
Proof. destruct k; reflexivity. Qed.

Section Reading.
Variable items : list (str * attr) -> list (str * attr).
Variable fs : Floats.SpecFloat.spec_float -> str.
Hypothesis listing : listed items.
Definition given (h : head) : list (str * str) := map (fun na => (fst na, show fs (a_value (snd na)))) (items (attrs h)).
Definition kids_text (i : nat) (ks : list kid) : str :=
  flat_map (fun c => match c with inl c => format items fs i c | inr s => spaces i ++ s ++ [newline] end) ks.
Definition kids_meant (ks : list kid) : list (node + str) := map (fun c => match c with inl c => inl (meant items fs c) | inr s => inr s end) ks.
Definition body (i : nat) (e : elem) : str :=
  let '(Elem h ks) := e in
  L "<" ++ ename (kind h) ++ flat_map write_attr (given h) ++ L ">" ++ [newline] ++ kids_text (i + 2) ks ++ spaces i ++ L "</" ++ ename (kind h) ++ L ">".
Lemma format_eq i h ks : format items fs i (Elem h ks) =
  spaces i ++ L "<" ++ ename (kind h) ++ flat_map (format_attr fs) (items (attrs h)) ++ L ">" ++ [newline] ++ kids_text (i + 2) ks ++ spaces i ++ L "</" ++ ename (kind h) ++ L ">" ++ [newline].
Proof.
  cbn [format]. do 6 f_equal. f_equal. induction ks as [|[c|s] ks IH]; [reflexivity| |]; cbn [kids_text flat_map]; (f_equal; exact IH).
Qed.
Lemma given_text h : flat_map (format_attr fs) (items (attrs h)) = flat_map write_attr (given h).
Proof. unfold given. rewrite !flat_map_concat_map, map_map. reflexivity. Qed.
Lemma format_body i e : format items fs i e = spaces i ++ body i e ++ [newline].
Proof. destruct e as [h ks]. rewrite format_eq, given_text. cbn [body]. rewrite <- !app_assoc. reflexivity. Qed.
Lemma meant_eq h ks : meant items fs (Elem h ks) = Node (ename (kind h)) (given h) (kids_meant ks).
Proof. cbn [meant]. unfold given. f_equal. induction ks as [|[c|s] ks IH]; [reflexivity| |]; cbn [kids_meant map]; f_equal; exact IH. Qed.
Fixpoint size (e : elem) : nat :=
  let '(Elem h ks) := e in
  (2 + (fix each (ks : list kid) : nat := match ks with [] => 0%nat | inl c :: ks => (size c + each ks)%nat | inr _ :: ks => each ks end) ks)%nat.
Definition sizes (ks : list kid) : nat := list_sum (map (fun c => match c with inl c => size c | inr _ => 0%nat end) ks).
Lemma size_eq h ks : size (Elem h ks) = (2 + sizes ks)%nat.
Proof. cbn [size]. f_equal. f_equal. unfold sizes. induction ks as [|[c|s] ks IH]; [reflexivity| |]; cbn [map list_sum fold_right]; rewrite IH; reflexivity. Qed.
Lemma neat_given h : neat_head fs h -> Forall plain_attr (given h) /\ distinct (map fst (given h)) = true.
Proof.
  intros (D & P). unfold given. split.
  - apply Forall_forall. intros nv I. apply in_map_iff in I as ((n & a) & <- & I). apply (Permutation_in _ (listing _)) in I. destruct (P n a I) as (C & V).
    split; [|exact V]. cbn [fst]. revert C. unfold class_of. intros C. destruct (dget str_eqb (attlist (kind h)) n) as [c|] eqn:E; [|congruence].
    apply (dget_in str_eqb str_eqb_eq) in E. clear -E. assert (X : forallb (fun nc => is_name (fst nc)) (attlist (kind h)) = true) by (destruct (kind h); reflexivity).
    rewrite forallb_forall in X. exact (X _ E).
  - rewrite map_map. cbn [fst]. assert (N : NoDup (map (fun x : str * attr => fst x) (items (attrs h)))).
    { apply (Permutation_NoDup (l := map fst (attrs h))); [|exact D]. apply Permutation_map, Permutation_sym, listing. }
    induction N as [|x l I N IH]; [reflexivity|]. cbn [distinct]. rewrite IH, Bool.andb_true_r. apply negb_true_iff. destruct (existsb (str_eqb x) l) eqn:E; [|reflexivity].
    apply existsb_exists in E as (y & J & E). apply str_eqb_eq in E as ->. contradiction.
Qed.
Lemma tag_next h r : exists c r', flat_map write_attr (given h) ++ L ">" ++ r = c :: r' /\ name_char c = false.
Proof. destruct (given h) as [|nv l]; [exists (">"%char), r; split; reflexivity|]. eexists _, _. split; [cbn [flat_map]; unfold write_attr at 1; rewrite <- !app_assoc; reflexivity|reflexivity]. Qed.
Lemma given_length h r : (List.length (given h) < List.length (flat_map write_attr (given h) ++ L ">" ++ r))%nat.
Proof.
  rewrite app_length. assert (X : (List.length (given h) <= List.length (flat_map write_attr (given h)))%nat).
  { induction (given h) as [|nv l IH]; [cbn; lia|]. cbn [flat_map List.length]. rewrite app_length. unfold write_attr at 1. rewrite app_length. cbn [L list_ascii_of_string List.length]. lia. }
  cbn [L list_ascii_of_string app List.length]. lia.
Qed.
Definition kid_texts (ks : list kid) : list str := flat_map (fun c => match c with inl _ => [] | inr s => [s] end) ks.
Lemma content_ok i r : forall ks, (forall c, In (inl c) ks -> forall fuel r, (size c <= fuel)%nat -> element fuel (body i c ++ r) = Some (meant items fs c, r)) ->
  one_text (kid_texts ks) -> forall j p fuel, forallb plain_char p = true -> (forallb blank p = true \/ kid_texts ks = []) -> (1 + sizes ks <= fuel)%nat ->
  content fuel (p ++ kids_text i ks ++ spaces j ++ L "</" ++ r) = Some (data p ++ kids_meant ks, L "</" ++ r).
Proof.
  induction ks as [|[c|s] ks IH]; intros K T j p fuel P B F.
  - destruct fuel as [|fuel]; [cbn in F; lia|]. cbn [kids_text flat_map app kids_meant map]. rewrite app_assoc.
    change (L "</" ++ r) with ("<"%char :: "/"%char :: r). cbn [content].
    rewrite span_all; [|rewrite forallb_app, plain_not_open by exact P; apply plain_not_open, blank_plain, spaces_blank|reflexivity]. cbn [fst snd].
    rewrite forallb_app, P, (blank_plain _ (spaces_blank j)). cbn [andb].
    change (beginning (L "</") ("<"%char :: "/"%char :: r)) with (Some r). cbv iota. rewrite (data_behind p (spaces j) (spaces_blank j)), app_nil_r. reflexivity.
  - destruct fuel as [|fuel]; [cbn in F; lia|]. cbn [kids_text flat_map]. fold (kids_text i ks). rewrite format_body.
    assert (Sz : sizes (inl c :: ks) = (size c + sizes ks)%nat) by reflexivity. rewrite Sz in F.
    assert (S2 : (2 <= size c)%nat) by (destruct c; rewrite size_eq; lia).
    set (rest := [newline] ++ kids_text i ks ++ spaces j ++ L "</" ++ r).
    assert (E : p ++ ((spaces i ++ body i c ++ [newline]) ++ kids_text i ks) ++ spaces j ++ L "</" ++ r = (p ++ spaces i) ++ body i c ++ rest).
    { unfold rest. rewrite <- !app_assoc. reflexivity. }
    rewrite E. clear E. assert (Bd : exists d r', body i c = "<"%char :: d :: r' /\ name_char d = true).
    { destruct c as [h ks']. cbn [body]. destruct (name_first _ (ename_name (kind h))) as (d & r' & -> & D). eexists d, _. split; [reflexivity|exact D]. }
    destruct Bd as (d & r' & Bd & D). cbn [content]. rewrite Bd. cbn [app].
    rewrite span_all; [|rewrite forallb_app, plain_not_open by exact P; apply plain_not_open, blank_plain, spaces_blank|reflexivity]. cbn [fst snd].
    rewrite forallb_app, P, (blank_plain _ (spaces_blank i)). cbn [andb].
    assert (No : beginning (L "</") ("<"%char :: d :: r' ++ rest) = None).
    { cbn [L list_ascii_of_string beginning]. change (Ascii.eqb "<" "<") with true. cbv iota.
      destruct (Ascii.eqb "/" d) eqn:Sl; [|reflexivity]. apply Ascii.eqb_eq in Sl. subst d. discriminate. }
    rewrite No. change ("<"%char :: d :: r' ++ rest) with (("<"%char :: d :: r') ++ rest). rewrite <- Bd.
    rewrite (K c (or_introl eq_refl)) by lia. cbn [opt snd fst]. unfold rest at 1.
    rewrite (IH (fun c I => K c (or_intror I)) T j [newline] fuel eq_refl (or_introl eq_refl)) by lia. cbn [opt fst snd].
    rewrite (data_behind p (spaces i) (spaces_blank i)). reflexivity.
  - assert (Ts : kid_texts (inr s :: ks) = s :: kid_texts ks) by reflexivity. rewrite Ts in T, B. destruct T as (Le & T). cbn in Le.
    destruct B as [B|B]; [|discriminate]. assert (N : kid_texts ks = []) by (destruct (kid_texts ks); [reflexivity|cbn in Le; lia]).
    assert (Bs : bare_text s = true) by (apply T; left; reflexivity). destruct (bare_plain s Bs) as (Ps & _).
    cbn [kids_text flat_map]. fold (kids_text i ks).
    assert (E : p ++ ((spaces i ++ s ++ [newline]) ++ kids_text i ks) ++ spaces j ++ L "</" ++ r = (p ++ spaces i ++ s ++ [newline]) ++ kids_text i ks ++ spaces j ++ L "</" ++ r) by (rewrite <- !app_assoc; reflexivity).
    rewrite E. rewrite IH; [|intros c I; apply K; right; exact I|rewrite N; split; [cbn; lia|intros ? []]|rewrite !forallb_app, P, (blank_plain _ (spaces_blank i)), Ps; reflexivity|right; exact N|exact F].
    rewrite (app_assoc p), data_around by (rewrite ?forallb_app, ?B, ?spaces_blank; reflexivity). rewrite (data_text s Bs), (data_blank p B). reflexivity.
Qed.
Lemma elements_self e : In e (elements e).
Proof. destruct e. left. reflexivity. Qed.
Lemma elements_kid h ks c x : In (inl c) ks -> In x (elements c) -> In x (elements (Elem h ks)).
Proof.
  intros I J. rewrite elements_eq. right. induction ks as [|[d|s] ks IH]; [destruct I| |].
  - rewrite below_cons. apply in_or_app. destruct I as [I|I]; [injection I as ->; left; exact J|right; exact (IH I)].
  - destruct I as [I|I]; [discriminate|]. exact (IH I).
Qed.
Lemma element_ok e : neat fs e -> forall i fuel r, (size e <= fuel)%nat -> element fuel (body i e ++ r) = Some (meant items fs e, r).
Proof.
  induction e as [h ks IH] using elem_induction. intros N i [|fuel] r F; rewrite size_eq in F; [lia|].
  destruct (N (Elem h ks) (elements_self _)) as (NH & NT). destruct (neat_given h NH) as (PA & DA).
  set (rest := [newline] ++ kids_text (i + 2) ks ++ spaces i ++ L "</" ++ ename (kind h) ++ L ">" ++ r).
  assert (E : body i (Elem h ks) ++ r = L "<" ++ ename (kind h) ++ flat_map write_attr (given h) ++ L ">" ++ rest).
  { cbn [body]. unfold rest. rewrite <- !app_assoc. reflexivity. }
  rewrite E. clear E. cbn [element]. rewrite begin_app. cbn [opt].
  destruct (tag_next h rest) as (c & r' & Et & Nc). rewrite Et, (span_all name_char) by (auto using name_chars, ename_name). cbn [fst snd].
  rewrite ename_name, <- Et, (tag_rest_ok (given h) rest) by (auto using given_length). cbn [opt fst snd]. rewrite DA.
  unfold rest at 1. rewrite (content_ok (i + 2) (ename (kind h) ++ L ">" ++ r)); [|..|reflexivity|left; reflexivity|lia].
  - cbn [opt fst snd]. rewrite (app_assoc (L "</")), begin_app. cbn [opt]. rewrite (skip_none ">"%char r eq_refl : skip (L ">" ++ r) = L ">" ++ r), begin_app. cbn [opt].
    rewrite meant_eq. reflexivity.
  - intros c0 I fuel0 r0 F0. apply IH; [exact I| |exact F0]. intros x J. apply N. eapply elements_kid; eassumption.
  - exact NT.
Qed.
Lemma size_length e : forall i, (size e <= List.length (body i e))%nat.
Proof.
  induction e as [h ks IH] using elem_induction. intros i. rewrite size_eq. cbn [body]. rewrite !app_length. cbn [L list_ascii_of_string List.length].
  assert (X : (sizes ks <= List.length (kids_text (i + 2) ks))%nat); [|lia].
  induction ks as [|[c|s] ks IHk]; [cbn; lia| |].
  - change (sizes (inl c :: ks)) with (size c + sizes ks)%nat. cbn [kids_text flat_map]. fold (kids_text (i + 2) ks). rewrite format_body, !app_length.
    specialize (IH c (or_introl eq_refl) (i + 2)%nat) as Hc. specialize (IHk (fun c I => IH c (or_intror I))). lia.
  - change (sizes (inr s :: ks)) with (sizes ks). cbn [kids_text flat_map]. fold (kids_text (i + 2) ks). rewrite app_length.
    specialize (IHk (fun c I => IH c (or_intror I))). lia.
Qed.
Lemma name_legal n : is_name n = true -> forallb legal n = true.
Proof. intros N. apply name_chars in N. rewrite forallb_forall in *. intros c I. apply name_char_solid, N, I. Qed.
Lemma spaces_legal n : forallb legal (spaces n) = true.
Proof. induction n; [reflexivity|exact IHn]. Qed.
Lemma body_legal e : neat fs e -> forall i, forallb legal (body i e) = true.
Proof.
  induction e as [h ks IH] using elem_induction. intros N i. destruct (N (Elem h ks) (elements_self _)) as (NH & NT). destruct (neat_given h NH) as (PA & _).
  cbn [body]. rewrite !forallb_app, (name_legal _ (ename_name (kind h))), spaces_legal.
  assert (XA : forallb legal (flat_map write_attr (given h)) = true).
  { induction PA as [|nv l (A & B) PA IHl]; [reflexivity|]. cbn [flat_map]. rewrite forallb_app, IHl. unfold write_attr. rewrite !forallb_app, (name_legal _ A). destruct (value_chars _ B) as (_ & _ & _ & ->). reflexivity. }
  rewrite XA. assert (XK : forallb legal (kids_text (i + 2) ks) = true); [|rewrite XK; reflexivity].
  assert (NK : forall c, In (inl c) ks -> neat fs c) by (intros c I x J; apply N; eapply elements_kid; eassumption).
  assert (TK : forall s, In s (kid_texts ks) -> bare_text s = true) by (apply NT). clear N NH NT PA XA.
  induction ks as [|[c|s] ks IHk]; [reflexivity| |]; cbn [kids_text flat_map]; fold (kids_text (i + 2) ks); rewrite forallb_app.
  - rewrite format_body, !forallb_app, spaces_legal, (IH c (or_introl eq_refl)) by (apply NK; left; reflexivity).
    rewrite IHk; [reflexivity|intros c' I; apply IH; right; exact I|intros c' I; apply NK; right; exact I|exact TK].
  - rewrite !forallb_app, spaces_legal. destruct (bare_plain s) as (_ & ->); [apply TK; left; reflexivity|].
    rewrite IHk; [reflexivity|intros c' I; apply IH; right; exact I|intros c' I; apply NK; right; exact I|intros s' I; apply TK; right; exact I].
Qed.
Lemma reads_back t : neat fs t -> kind (ehead t) = EBoard -> read_document (xml items fs t) = Some (L "board", meant items fs t).
Proof.
  intros N K. unfold read_document.
  assert (Lg : forallb legal (xml items fs t) = true).
  { unfold xml. rewrite !forallb_app, format_body, !forallb_app, (body_legal t N). reflexivity. }
  rewrite Lg. unfold xml. set (rest := format items fs 0 t).
  assert (Er : beginning (L "<?xml ") (dec_xml ++ dec_doctype ++ rest) = Some (L "version=""1.0"" encoding=""us-ascii"" ?>" ++ [newline] ++ dec_doctype ++ rest)) by reflexivity.
  rewrite Er. cbn [opt]. clear Er.
  assert (Er : behind (L "?>") (L "version=""1.0"" encoding=""us-ascii"" ?>" ++ [newline] ++ dec_doctype ++ rest) = Some ([newline] ++ dec_doctype ++ rest)) by reflexivity.
  rewrite Er. cbn [opt]. clear Er.
  assert (Er : beginning (L "<!DOCTYPE ") (skip ([newline] ++ dec_doctype ++ rest)) = Some (L "board SYSTEM """ ++ dtd_url ++ L """ >" ++ [newline] ++ rest)) by reflexivity.
  rewrite Er. cbn [opt]. clear Er.
  change (L "board SYSTEM """ ++ dtd_url ++ L """ >" ++ [newline] ++ rest) with (L "board" ++ " "%char :: L "SYSTEM """ ++ dtd_url ++ L """ >" ++ [newline] ++ rest).
  rewrite (span_all name_char) by reflexivity. cbn [fst snd]. change (is_name (L "board")) with true. cbv iota.
  assert (Er : behind (L ">") (" "%char :: L "SYSTEM """ ++ dtd_url ++ L """ >" ++ [newline] ++ rest) = Some ([newline] ++ rest)) by reflexivity.
  rewrite Er. cbn [opt]. clear Er. unfold rest. rewrite format_body. cbn [spaces repeat app].
  assert (Sk : skip (newline :: body 0 t ++ [newline]) = body 0 t ++ [newline]).
  { destruct t as [h ks]. cbn [body]. rewrite <- !app_assoc. reflexivity. }
  rewrite Sk, element_ok; [|exact N|cbn [List.length]; rewrite app_length; pose proof (size_length t 0); lia]. reflexivity.
Qed.
End Reading.
