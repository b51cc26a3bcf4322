(* What the patterns of a line match *)
From Verif Require Import Py PyFacts Re Rx RxFacts HtmlModel HtmlSpec TreeModel TreeSpec TreeHtml WikiModel WikiSpec.
Open Scope string_scope.
Open Scope list_scope.
Open Scope nat_scope.

(* ---- the pattern of a match ---- *)
Definition hit (i : nat) (name : string) (r : rx) (line pre w : str) (f : bool) (st : spot) : Prop :=
  nth_error line_patterns i = Some (name, r) /\ line = pre ++ w ++ left st /\ (f = true -> pre = [])
  /\ steps r (mkspot f (w ++ left st) []) w st
  /\ forall j n' r', j < i -> nth_error line_patterns j = Some (n', r') -> run (XGroup n' r') Some (mkspot f (w ++ left st) []) = None.
Lemma regexp_hit : forall ps n f s g, ps <> [] -> In g (finditer n (regexp ps) f s) ->
  exists i name r pre w f' st, nth_error ps i = Some (name, r) /\ s = pre ++ w ++ left st /\ (f' = true -> f = true /\ pre = [])
  /\ steps r (mkspot f' (w ++ left st) []) w st /\ g = (name, w) :: caps st
  /\ forall j n' r', j < i -> nth_error ps j = Some (n', r') -> run (XGroup n' r') Some (mkspot f' (w ++ left st) []) = None.
Proof.
  intros ps n f s g N H. destruct (finditer_in _ _ _ _ _ H) as (f' & pre & s' & w & st & E1 & E2 & E3 & _ & _ & ->).
  unfold regexp in E3. apply run_alts in E3; [|destruct ps; [congruence|discriminate]]. destruct E3 as (l1 & x & l2 & E & R & None).
  assert (Hi : nth_error (map (fun '(n0, r) => XGroup n0 r) ps) (List.length l1) = Some x) by (rewrite E, nth_error_app2, Nat.sub_diag by lia; reflexivity).
  rewrite nth_error_map in Hi. destruct (nth_error ps (List.length l1)) as [[name r]|] eqn:Ei; [|discriminate]. injection Hi as <-.
  apply run_steps in R. destruct R as (w' & st' & S & K). injection K as ->. apply inv_group in S. destruct S as (st1 & S & ->).
  pose proof (steps_left _ _ _ _ S) as Hl. cbn [left] in Hl. cbn [caps left].
  exists (List.length l1), name, r, pre, w', f', st1. split; [exact Ei|]. split; [congruence|]. split; [exact E2|]. rewrite <- Hl. split; [exact S|]. split; [reflexivity|].
  intros j n' r' Lt Hj. apply None. assert (Q : nth_error (map (fun '(n0, r0) => XGroup n0 r0) ps) j = Some (XGroup n' r')) by (rewrite nth_error_map, Hj; reflexivity).
  rewrite E, nth_error_app1 in Q by exact Lt. eapply nth_error_In. exact Q.
Qed.
Lemma matches_hit : forall line g, In g (matches line) -> exists i name r pre w f st, hit i name r line pre w f st /\ g = (name, w) :: caps st.
Proof.
  intros line g H. apply regexp_hit in H; [|discriminate]. destruct H as (i & name & r & pre & w & f & st & H1 & H2 & H3 & H4 & H5 & H6).
  exists i, name, r, pre, w, f, st. split; [|exact H5]. split; [exact H1|]. split; [exact H2|]. split; [intro Hf; apply H3; exact Hf|]. split; assumption.
Qed.

Ltac pattern_is H := apply (f_equal (fun o => match o with Some (_, x) => x | None => XEps end)) in H; symmetry; exact H.

(* ---- characters ---- *)
Definition plain_rx (r : rx) : bool := negb (allows r "<") && negb (allows r ">").
Lemma steps_plain : forall r st w st', steps r st w st' -> plain_rx r = true -> plain w.
Proof.
  intros r st w st' H P c I. apply andb_prop in P. destruct P as [P1 P2]. pose proof (steps_allows _ _ _ _ H c I) as Q.
  split; intros ->; rewrite Q in *; discriminate.
Qed.
Lemma steps_quiet : forall r st w st', steps r st w st' -> allows r quote = false -> quiet w.
Proof. intros r st w st' H P I. rewrite (steps_allows _ _ _ _ H _ I) in P. discriminate. Qed.
Lemma plain_part : forall u w, part u w -> plain w -> plain u.
Proof. intros u w H P c I. apply P. eapply part_in; eassumption. Qed.
Lemma quiet_part : forall u w, part u w -> quiet w -> quiet u.
Proof. intros u w H P I. apply P. eapply part_in; eassumption. Qed.
Lemma quiet_app : forall a b, quiet a -> quiet b -> quiet (a ++ b).
Proof. intros a b Pa Pb I. apply in_app_or in I. destruct I; [apply Pa|apply Pb]; assumption. Qed.
Lemma quiet_list : forall s, forallb (fun c => negb (Ascii.eqb c quote)) s = true -> quiet s.
Proof. intros s H I. rewrite forallb_forall in H. specialize (H _ I). rewrite Ascii.eqb_refl in H. discriminate. Qed.
Lemma quiet_escape : forall s, quiet s -> quiet (escape s).
Proof.
  intros s P I. apply in_flat_map in I. destruct I as (c & I & J). destruct (HtmlProofs.escape_char_cases c) as [[-> E]|[[-> E]|[[-> E]|[_ E]]]]; rewrite E in J; cbn in J.
  all: try (repeat (destruct J as [J|J]; [discriminate J|]); contradiction).
  destruct J as [J|[]]. rewrite J in I. exact (P I).
Qed.
Lemma skipn_part : forall n (s : str), part (skipn n s) s.
Proof. intros n s. exists (firstn n s), []. rewrite app_nil_r, firstn_skipn. reflexivity. Qed.
Lemma firstn_part : forall n (s : str), part (firstn n s) s.
Proof. intros n s. exists [], (skipn n s). cbn. rewrite firstn_skipn. reflexivity. Qed.
Lemma slice_part : forall a b s, part (slice a b s) s.
Proof. intros. unfold slice. eapply part_trans; [apply firstn_part|apply skipn_part]. Qed.
Lemma groupless_caps : forall i name r line pre w f st, hit i name r line pre w f st -> groupless r = true -> caps st = [].
Proof. intros i name r line pre w f st (_ & _ & _ & H & _) G. apply (steps_caps _ _ _ _ H G). Qed.
(* the character of rest_of_the_world *)
Lemma hit_rest : forall r line pre w f st, hit 30 "_pattern_rest_of_the_world" r line pre w f st -> plain w.
Proof.
  intros r line pre w f st (Hi & _ & _ & S & No). assert (Er : r = dot) by (pattern_is Hi). rewrite Er in S. clear Er Hi.
  pose proof (No 29 _ _ (ltac:(lia)) eq_refl) as N. clear No. apply inv_chr in S. destruct S as (c & -> & _).
  intros x [<-|[]]. split; intros ->; cbn in N; discriminate N.
Qed.
Lemma hit_rest_amp : forall r line pre w f st, hit 30 "_pattern_rest_of_the_world" r line pre w f st -> ~ In "&"%char w.
Proof.
  intros r line pre w f st (Hi & _ & _ & S & No). assert (Er : r = dot) by (pattern_is Hi). rewrite Er in S. clear Er Hi.
  pose proof (No 29 _ _ (ltac:(lia)) eq_refl) as N. clear No. apply inv_chr in S. destruct S as (c & -> & _).
  intros [->|[]]. cbn in N; discriminate N.
Qed.
(* a block starts on a line of its own *)
Lemma hit_block : forall r line pre w f st, hit 8 "_pattern_preformat_start" r line pre w f st -> one_line line -> line = L "{{{".
Proof.
  intros r line pre w f st (Hi & El & Hf & S & _) O. assert (Er : r = xcats [bang; XBol; xlit "{{{"; XEol]) by (pattern_is Hi). rewrite Er in S. clear Er Hi.
  cbn [xcats] in S. apply inv_cat in S. destruct S as (u & st1 & v & -> & S1 & S2). apply inv_cat in S2. destruct S2 as (u2 & st2 & v2 & -> & S2 & S3).
  apply inv_bol in S2. destruct S2 as (-> & -> & Fr). apply inv_cat in S3. destruct S3 as (u3 & st3 & v3 & -> & S3 & S4). apply inv_lit in S3. destruct S3 as (-> & _ & _).
  apply inv_eol in S4. destruct S4 as (-> & -> & Q).
  assert (U : u = [] /\ f = true).
  { unfold bang, xopt in S1. apply inv_alt in S1. destruct S1 as [S1|S1]; [apply inv_lit in S1; destruct S1 as (-> & _ & K); destruct (K Fr) as [_ K2]; discriminate K2|].
    apply inv_eps in S1. destruct S1 as [-> E]. split; [reflexivity|]. rewrite E in Fr. exact Fr. }
  destruct U as [-> Ef]. rewrite (Hf Ef) in El. cbn [app] in El. rewrite app_nil_r in El.
  destruct (left st3) as [|c [|d l]] eqn:Es; cbn in Q; [exact El| |discriminate]. apply Ascii.eqb_eq in Q. subst c. exfalso.
  destruct (O newline_char) as [Z _]; [rewrite El; apply in_or_app; right; left; reflexivity|]. apply Z. reflexivity.
Qed.
(* ---- list items ---- *)
Lemma all_blank : forall w, (forall c, In c w -> c = " "%char) -> w = repeat " "%char (List.length w).
Proof. induction w as [|c w IH]; intros H; [reflexivity|]. cbn. rewrite (H c) by (left; reflexivity). f_equal. apply IH. intros d I. apply H. right. exact I. Qed.
Lemma blank_only : forall c, allows (xplus blank) c = true -> c = " "%char.
Proof.
  intros c H. assert (G : forallb (fun n => implb (allows (xplus blank) (ascii_of_nat n)) (Ascii.eqb (ascii_of_nat n) " ")) (seq 0 256) = true) by (vm_compute; reflexivity).
  rewrite forallb_forall in G. specialize (G (nat_of_ascii c)). rewrite ascii_nat_embedding in G. rewrite H in G. apply Ascii.eqb_eq. apply G. apply in_seq.
  pose proof (nat_ascii_bounded c). lia.
Qed.
Lemma inv_marks : forall c st w st', steps (marks c) st w st' -> inset (Ranges false [xone c]) c = true -> (forall d, inset (Ranges false [xone c]) d = true -> d = c) ->
  (w = [c] \/ w = [c; c] \/ w = [c; c; c]) /\ caps st' = caps st.
Proof.
  intros c st w st' H _ Q. unfold marks, xopt in H. apply inv_cat in H. destruct H as (u & st1 & v & -> & H1 & H2). apply inv_chr in H1. destruct H1 as (d & -> & I & C1 & _).
  rewrite (Q _ I). apply inv_alt in H2. destruct H2 as [H2|H2].
  - apply inv_cat in H2. destruct H2 as (u2 & st2 & v2 & -> & H2 & H3). apply inv_chr in H2. destruct H2 as (d2 & -> & I2 & C2 & _). rewrite (Q _ I2). apply inv_alt in H3. destruct H3 as [H3|H3].
    + apply inv_chr in H3. destruct H3 as (d3 & -> & I3 & C3 & _). rewrite (Q _ I3). split; [auto|congruence].
    + apply inv_eps in H3. destruct H3 as [-> ->]. split; [auto|congruence].
  - apply inv_eps in H2. destruct H2 as [-> ->]. split; [auto|congruence].
Qed.
Lemma bit_anti : forall x y r1 r2, bit_leb x y r1 = true -> bit_leb y x r2 = true -> x = y /\ r1 = true /\ r2 = true.
Proof. intros [] [] r1 r2; cbn; intros; try discriminate; auto. Qed.
Lemma one_only : forall c d, inset (Ranges false [xone c]) d = true -> d = c.
Proof.
  intros c d H. unfold inset, xone in H. cbn [existsb xorb] in H. rewrite orb_false_r in H. assert (G : in_range c c d = true) by (destruct (in_range c c d); [reflexivity|discriminate]).
  unfold in_range in G. destruct (chr_leb c d) eqn:G1; [|discriminate]. destruct c, d. unfold chr_leb in G, G1.
  repeat match goal with H1 : bit_leb ?x ?y _ = true, H2 : bit_leb ?y ?x _ = true |- _ => destruct (bit_anti _ _ _ _ H1 H2) as (-> & ? & ?); clear H1 H2 end. reflexivity.
Qed.
Inductive mark_groups : str -> list (string * str) -> Prop :=
| mg_plus : forall m, In m [L "+"; L "++"; L "+++"] -> mark_groups m [("sign", m); ("plus", m)]
| mg_minus : forall m, In m [L "-"; L "--"; L "---"] -> mark_groups m [("sign", m); ("minus", m)]
| mg_other : forall m x, In x ["star"; "ordered_numeric"; "ordered_alpha"; "ordered_roman"] -> m <> [] ->
    (forall c, In c m -> c <> " "%char /\ c <> "+"%char /\ c <> "-"%char) -> mark_groups m [(x, m)].
Lemma inv_other : forall x r st w st', steps (XGroup x r) st w st' -> groupless r = true -> caps st = [] -> In x ["star"; "ordered_numeric"; "ordered_alpha"; "ordered_roman"] ->
  w <> [] -> allows r " " = false -> allows r "+" = false -> allows r "-" = false -> mark_groups w (caps st').
Proof.
  intros x r st w st' H G C Hx N A1 A2 A3. apply inv_group in H. destruct H as (st1 & S & ->). cbn [caps]. rewrite (steps_caps _ _ _ _ S G), C. constructor; [exact Hx|exact N|].
  intros c I. pose proof (steps_allows _ _ _ _ S c I) as Q. repeat split; intros ->; rewrite Q in *; discriminate.
Qed.
Lemma cat_nonempty : forall p b st w st', steps (XCat (XChr p) b) st w st' -> w <> [].
Proof. intros p b st w st' H. apply inv_cat in H. destruct H as (u & st1 & v & -> & H & _). apply inv_chr in H. destruct H as (c & -> & _). discriminate. Qed.
Lemma inv_mark : forall st w st', steps item_mark st w st' -> caps st = [] -> mark_groups w (caps st').
Proof.
  intros st w st' H C. unfold item_mark in H. cbn [xalts] in H.
  apply inv_alt in H. destruct H as [H|H].
  { eapply inv_other; [exact H|reflexivity|exact C|cbn; tauto| |reflexivity..]. apply inv_group in H. destruct H as (? & H & _). apply inv_chr in H. destruct H as (c & -> & _). discriminate. }
  apply inv_alt in H. destruct H as [H|H].
  { apply inv_group in H. destruct H as (st1 & H & ->). apply inv_alt in H. destruct H as [H|H]; apply inv_group in H; destruct H as (st2 & H & ->); cbn [caps].
    - apply inv_marks in H; [|reflexivity|apply one_only]. destruct H as [H ->]. rewrite C. constructor. cbn. destruct H as [->|[->| ->]]; auto.
    - apply inv_marks in H; [|reflexivity|apply one_only]. destruct H as [H ->]. rewrite C. constructor. cbn. destruct H as [->|[->| ->]]; auto. }
  apply inv_alt in H. destruct H as [H|H].
  { eapply inv_other; [exact H|reflexivity|exact C|cbn; tauto| |reflexivity..]. apply inv_group in H. destruct H as (? & H & _). eapply cat_nonempty. exact H. }
  apply inv_alt in H. destruct H as [H|H].
  { eapply inv_other; [exact H|reflexivity|exact C|cbn; tauto| |reflexivity..]. apply inv_group in H. destruct H as (? & H & _). eapply cat_nonempty. exact H. }
  eapply inv_other; [exact H|reflexivity|exact C|cbn; tauto| |reflexivity..]. apply inv_group in H. destruct H as (? & H & _).
  apply inv_cat in H. destruct H as (u & st1 & v & -> & H & _). apply cat_nonempty in H. destruct u; [congruence|discriminate].
Qed.
Lemma hit_item : forall name r line pre w f st, hit 25 name r line pre w f st ->
  exists n m rest, line = repeat " "%char (S n) ++ m ++ " "%char :: rest /\ w = repeat " "%char (S n) ++ m ++ [" "%char] /\ mark_groups m (caps st).
Proof.
  intros name r line pre w f st (Hi & El & Hf & S & _). assert (Er : r = xcats [XBol; xplus blank; item_mark; blank]) by (pattern_is Hi). rewrite Er in S. clear Er Hi.
  cbn [xcats] in S. apply inv_cat in S. destruct S as (u & st1 & v & -> & S1 & S2). apply inv_bol in S1. destruct S1 as (-> & -> & Fr). cbn [fresh] in Fr.
  apply inv_cat in S2. destruct S2 as (u & st2 & v' & -> & S1 & S2). apply inv_cat in S2. destruct S2 as (m & st3 & b & -> & S2 & S3).
  apply inv_chr in S3. destruct S3 as (c & -> & I & C3 & _). apply one_only in I. subst c.
  pose proof (all_blank u (fun c J => blank_only c (steps_allows _ _ _ _ S1 c J))) as Eu.
  assert (C2 : caps st2 = []) by (rewrite (steps_caps _ _ _ _ S1 eq_refl); reflexivity).
  apply inv_mark in S2; [|exact C2]. rewrite <- C3 in S2. pose proof (cat_nonempty _ _ _ _ _ S1) as Nu. destruct u as [|c u]; [congruence|].
  exists (List.length u), m, (left st). rewrite Eu in El |- *. cbn [List.length] in *. rewrite (Hf Fr) in El. split; [|split; [reflexivity|exact S2]].
  rewrite El. cbn [app]. rewrite <- !app_assoc. reflexivity.
Qed.
(* ---- macros ---- *)
Lemma hit_macro : forall name r line pre w f st, hit 15 name r line pre w f st ->
  exists nm, (caps st = [("macro_name", nm)] /\ w = L "[[" ++ nm ++ L "]]")
    \/ (exists a, caps st = [("macro_args", a); ("macro_name", nm)] /\ w = L "[[" ++ nm ++ L "(" ++ a ++ L ")]]").
Proof.
  intros name r line pre w f st (Hi & El & Hf & S & _).
  assert (Er : r = xcats [xlit "[["; XGroup "macro_name" (xplus word);
       xopt (xcats [xlit "("; XGroup "macro_args" (xplus (xset [("a", "z"); ("A", "Z"); ("0", "9"); xone "+"; xone ","; xone " "; xone "."; xone "="; xone "/"; xone "#"; xone ":"]%char)); xlit ")"]);
       xlit "]]"]) by (pattern_is Hi).
  rewrite Er in S. clear Er Hi. cbn [xcats] in S.
  apply inv_cat in S. destruct S as (u & st1 & v & -> & S1 & S2). apply inv_lit in S1. destruct S1 as (-> & C1 & _). cbn [caps] in C1.
  apply inv_cat in S2. destruct S2 as (nm & st2 & v2 & -> & S2 & S3). apply inv_group in S2. destruct S2 as (st2' & S2 & ->).
  apply steps_caps in S2; [|reflexivity]. rewrite C1 in S2.
  apply inv_cat in S3. destruct S3 as (o & st3 & v3 & -> & S3 & S4). apply inv_lit in S4. destruct S4 as (-> & C4 & _).
  exists nm. unfold xopt in S3. apply inv_alt in S3. destruct S3 as [S3|S3].
  - right. apply inv_cat in S3. destruct S3 as (u & st4 & v & -> & S3 & S5). apply inv_lit in S3. destruct S3 as (-> & C3 & _). cbn [caps] in C3.
    apply inv_cat in S5. destruct S5 as (a & st5 & v5 & -> & S5 & S6). apply inv_group in S5. destruct S5 as (st5' & S5 & ->). apply steps_caps in S5; [|reflexivity].
    apply inv_lit in S6. destruct S6 as (-> & C6 & _). cbn [caps] in C6. exists a. split; [congruence|]. change (L ")]]") with (L ")" ++ L "]]"). rewrite <- !app_assoc. reflexivity.
  - left. apply inv_eps in S3. destruct S3 as [-> ->]. cbn [caps] in C4. split; [congruence|]. reflexivity.
Qed.
(* ---- links ---- *)
Lemma inv_bang : forall st w st', steps bang st w st' -> w = [] \/ w = L "!".
Proof. intros st w st' H. unfold bang, xopt in H. apply inv_alt in H. destruct H as [H|H]; [apply inv_lit in H|apply inv_eps in H]; tauto. Qed.
(* a URL of the text *)
Lemma url_chars : forall c, allows (xplus (xset [("a", "z"); ("A", "Z"); ("0", "9"); xone "_"; xone "~"; xone "#"; xone "="; xone "?"; xone "."; xone "/"; xone "-"; xone "&"; xone "%"]%char)) c = true -> url_char c = true.
Proof.
  intros c H. assert (G : forallb (fun n => implb (allows (xplus (xset [("a", "z"); ("A", "Z"); ("0", "9"); xone "_"; xone "~"; xone "#"; xone "="; xone "?"; xone "."; xone "/"; xone "-"; xone "&"; xone "%"]%char)) (ascii_of_nat n)) (url_char (ascii_of_nat n))) (seq 0 256) = true) by (vm_compute; reflexivity).
  rewrite forallb_forall in G. specialize (G (nat_of_ascii c)). rewrite ascii_nat_embedding in G. rewrite H in G. apply G. apply in_seq.
  pose proof (nat_ascii_bounded c). lia.
Qed.
Lemma url_parts : forall nm st w st', steps (url nm) st w st' -> exists scheme u, w = scheme ++ u /\ In scheme [L "http://"; L "https://"] /\ forall c, In c u -> url_char c = true.
Proof.
  intros nm st w st' S2. unfold url in S2. apply inv_group in S2. destruct S2 as (st2 & S2 & _). cbn [xcats] in S2.
  apply inv_cat in S2. destruct S2 as (h & st3 & v3 & -> & S3 & S4). apply inv_lit in S3. destruct S3 as (-> & _).
  apply inv_cat in S4. destruct S4 as (o & st4 & v4 & -> & S4 & S5). apply inv_cat in S5. destruct S5 as (cs & st5 & v5 & -> & S5 & S6). apply inv_lit in S5. destruct S5 as (-> & _).
  assert (U : forall c, In c v5 -> url_char c = true) by (intros c I; apply url_chars; exact (steps_allows _ _ _ _ S6 c I)).
  unfold xopt in S4. apply inv_alt in S4. destruct S4 as [S4|S4]; [apply inv_lit in S4|apply inv_eps in S4]; destruct S4 as (-> & _).
  - exists (L "https://"), v5. split; [reflexivity|]. split; [right; left; reflexivity|exact U].
  - exists (L "http://"), v5. split; [reflexivity|]. split; [left; reflexivity|exact U].
Qed.
Lemma hit_addr : forall name r line pre w f st, hit 23 name r line pre w f st -> hd_error w <> Some "!"%char ->
  exists scheme u, w = scheme ++ u /\ In scheme [L "http://"; L "https://"] /\ forall c, In c u -> url_char c = true.
Proof.
  intros name r line pre w f st (Hi & _ & _ & S & _) N. assert (Er : r = XCat bang (url "url_2")) by (pattern_is Hi). rewrite Er in S. clear Er Hi.
  apply inv_cat in S. destruct S as (b & st1 & v & -> & S1 & S2). apply inv_bang in S1. destruct S1 as [->| ->]; [|exfalso; apply N; reflexivity].
  exact (url_parts _ _ _ _ S2).
Qed.
Lemma hit_scheme : forall name r line pre w f st, hit 21 name r line pre w f st ->
  exists u, quiet u /\ part u w /\ (caps st = [("url_1", u)] \/ exists scheme v d, caps st = [("disp", " "%char :: d); ("url_1", u)]
    /\ u = scheme ++ v /\ In scheme [L "http://"; L "https://"] /\ (forall c, In c v -> url_char c = true) /\ ~ In "]"%char d /\ part (L "[" ++ u ++ L " " ++ d ++ L "]") w).
Proof.
  intros name r line pre w f st (Hi & El & Hf & S & _).
  assert (Er : r = xcats [bang; xlit "["; url "url_1"; xopt (XGroup "disp" (XCat blank (xplus (XChr (Ranges true [xone "]"%char]))))); xlit "]"]) by (pattern_is Hi).
  rewrite Er in S. clear Er Hi. cbn [xcats] in S.
  apply inv_cat in S. destruct S as (b & st1 & v & -> & S1 & S2). apply steps_caps in S1; [|reflexivity]. cbn [caps] in S1.
  apply inv_cat in S2. destruct S2 as (o & st2 & v2 & -> & S2 & S3). apply inv_lit in S2. destruct S2 as (-> & C2 & _).
  apply inv_cat in S3. destruct S3 as (u & st3 & v3 & -> & S3 & S4). pose proof (url_parts _ _ _ _ S3) as (scheme & uv & Eu & Is & Uc). unfold url in S3. apply inv_group in S3. destruct S3 as (st3' & S3 & ->).
  pose proof (steps_quiet _ _ _ _ S3 eq_refl) as Qu. apply steps_caps in S3; [|reflexivity].
  apply inv_cat in S4. destruct S4 as (d & st4 & v4 & -> & S4 & S5). apply inv_lit in S5. destruct S5 as (-> & C5 & _).
  exists u. split; [exact Qu|]. split; [apply part_r, part_r, part_l, part_refl|]. unfold xopt in S4. apply inv_alt in S4. destruct S4 as [S4|S4].
  - right. apply inv_group in S4. destruct S4 as (st4' & S4 & ->). pose proof S4 as S6. apply steps_caps in S4; [|reflexivity]. cbn [caps] in *.
    apply inv_cat in S6. destruct S6 as (bl & st6 & d' & -> & S6 & S7). pose proof (fun c I => steps_allows _ _ _ _ S6 c I) as A. apply inv_chr in S6. destruct S6 as (c & -> & _).
    assert (c = " "%char) by (apply blank_only; change (allows (xplus blank) c) with (if allows blank c then true else allows blank c); rewrite (A c (or_introl eq_refl)); reflexivity). subst c.
    exists scheme, uv, d'. split; [rewrite C5, S4, S3, C2, S1; reflexivity|]. split; [exact Eu|]. split; [exact Is|]. split; [exact Uc|].
    split; [intro I; pose proof (steps_allows _ _ _ _ S7 _ I) as Al; discriminate Al|]. exists b, []. rewrite app_nil_r, <- ?app_assoc. reflexivity.
  - left. apply inv_eps in S4. destruct S4 as [_ ->]. cbn [caps] in C5. congruence.
Qed.
Lemma prefixed_app : forall p s, prefixed p (L p ++ s) = true.
Proof. intros p s. unfold prefixed. rewrite firstn_app, Nat.sub_diag, firstn_all. cbn. rewrite app_nil_r. apply str_eqb_eq. reflexivity. Qed.
Lemma digit_head : forall st w st', steps digits st w st' -> w <> [].
Proof. intros st w st' H. eapply cat_nonempty. exact H. Qed.
Lemma hit_entry : forall name r line pre w f st, hit 16 name r line pre w f st -> hd_error w <> Some "!"%char -> (exists n, w = "#"%char :: n) \/ prefixed "entry:" w = true.
Proof.
  intros name r line pre w f st (Hi & _ & _ & S & _) N. assert (Er : r = xcats [bang; XAlt (xlit "#") (xlit "entry:"); digits]) by (pattern_is Hi).
  rewrite Er in S. clear Er Hi. cbn [xcats] in S. apply inv_cat in S. destruct S as (b & st1 & v & -> & S1 & S2). apply inv_bang in S1. destruct S1 as [->| ->]; [|exfalso; apply N; reflexivity].
  apply inv_cat in S2. destruct S2 as (u & st2 & v2 & -> & S2 & S3). apply inv_alt in S2. destruct S2 as [S2|S2]; apply inv_lit in S2; destruct S2 as (-> & _).
  - left. eexists. reflexivity.
  - right. apply prefixed_app.
Qed.
Lemma hit_query : forall name r line pre w f st, hit 17 name r line pre w f st -> hd_error w <> Some "!"%char -> (exists n, w = "{"%char :: n) \/ prefixed "query:" w = true.
Proof.
  intros name r line pre w f st (Hi & _ & _ & S & _) N.
  assert (Er : r = XCat bang (XAlt (XCat (xlit "query:") digits) (xcats [xlit "{"; digits; xlit "}"]))) by (pattern_is Hi).
  rewrite Er in S. clear Er Hi. apply inv_cat in S. destruct S as (b & st1 & v & -> & S1 & S2). apply inv_bang in S1. destruct S1 as [->| ->]; [|exfalso; apply N; reflexivity].
  apply inv_alt in S2. destruct S2 as [S2|S2]; cbn [xcats] in S2; apply inv_cat in S2; destruct S2 as (u & st2 & v2 & -> & S2 & S3); apply inv_lit in S2; destruct S2 as (-> & _).
  - right. apply prefixed_app.
  - left. eexists. reflexivity.
Qed.
Lemma hit_match : forall name r line pre w f st, hit 18 name r line pre w f st -> hd_error w <> Some "!"%char -> (exists n, w = "["%char :: n) \/ prefixed "match:" w = true \/ prefixed "m" w = true.
Proof.
  intros name r line pre w f st (Hi & _ & _ & S & _) N.
  assert (Er : r = XCat bang (xalts [XCat (xlit "m") digits; XCat (xlit "match:") digits; xcats [xlit "["; digits; xlit "]"]])) by (pattern_is Hi).
  rewrite Er in S. clear Er Hi. apply inv_cat in S. destruct S as (b & st1 & v & -> & S1 & S2). apply inv_bang in S1. destruct S1 as [->| ->]; [|exfalso; apply N; reflexivity].
  cbn [xalts] in S2. apply inv_alt in S2. destruct S2 as [S2|S2].
  { apply inv_cat in S2; destruct S2 as (u & st2 & v2 & -> & S2 & S3); apply inv_lit in S2; destruct S2 as (-> & _). right. right. apply prefixed_app. }
  apply inv_alt in S2. destruct S2 as [S2|S2]; cbn [xcats] in S2; apply inv_cat in S2; destruct S2 as (u & st2 & v2 & -> & S2 & S3); apply inv_lit in S2; destruct S2 as (-> & _).
  - right. left. apply prefixed_app.
  - left. eexists. reflexivity.
Qed.
Lemma hit_wikiname : forall name r line pre w f st, hit 22 name r line pre w f st -> hd_error w <> Some "!"%char -> prefixed "[wiki:" w = true /\ str_eqb (skipn (List.length w - 1) w) (L "]") = true.
Proof.
  intros name r line pre w f st (Hi & _ & _ & S & _) N.
  assert (Er : r = xcats [bang; xlit "[wiki:"; xplus (xset [("A", "Z"); ("a", "z")]%char); xlit "]"]) by (pattern_is Hi).
  rewrite Er in S. clear Er Hi. cbn [xcats] in S. apply inv_cat in S. destruct S as (b & st1 & v & -> & S1 & S2). apply inv_bang in S1. destruct S1 as [->| ->]; [|exfalso; apply N; reflexivity].
  apply inv_cat in S2. destruct S2 as (u & st2 & v2 & -> & S2 & S3). apply inv_lit in S2; destruct S2 as (-> & _). split; [apply prefixed_app|].
  apply inv_cat in S3. destruct S3 as (nm & st3 & v3 & -> & _ & S3). apply inv_lit in S3; destruct S3 as (-> & _). cbn [app] in *.
  apply str_eqb_eq. rewrite app_assoc. rewrite app_length. cbn [List.length L list_ascii_of_string]. rewrite Nat.add_sub. rewrite skipn_app, skipn_all, Nat.sub_diag. reflexivity.
Qed.
(* the groups within a pattern have no handlers *)
Definition inner_names : list string := flat_map (fun p => named (snd p)) line_patterns.
Lemma hit_inner : forall i name r line pre w f st n u, hit i name r line pre w f st -> In (n, u) (caps st) -> In n inner_names.
Proof.
  intros i name r line pre w f st n u (Hi & _ & _ & S & _) I. destruct (steps_groups _ _ _ _ S n u I) as [[]|[J _]].
  apply in_flat_map. exists (name, r). split; [eapply nth_error_In; exact Hi|exact J].
Qed.
