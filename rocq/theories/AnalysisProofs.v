(* The tables of an analysis show what the data base says *)
From Verif Require Import Py PyFacts Dict DictFacts AnalysisModel AnalysisSpec.
From Verif Require WikiModel.
From Coq Require Import Floats.SpecFloat.
Open Scope string_scope.
Open Scope list_scope.
Open Scope Z_scope.

(* ---- numbers ---- *)
Lemma rounded_nearest : forall k m e, nearest k m e (rounded k m e).
Proof.
  intros k m e. unfold nearest, rounded, tens. destruct (0 <=? e) eqn:E; [reflexivity|]. apply Z.leb_gt in E.
  assert (D : 0 < 2 ^ (- e)) by (apply Z.pow_pos_nonneg; lia). set (d := 2 ^ (- e)) in *. set (x := Z.pos m * 10 ^ Z.of_nat k). clearbody x d.
  assert (X := Z.div_mod x d ltac:(lia)). assert (R := Z.mod_pos_bound x d D). set (q := x / d) in *. set (r := x mod d) in *. clearbody q r.
  assert (A1 : q * d - x = - r) by (rewrite X; ring). assert (A2 : (q + 1) * d - x = d - r) by (rewrite X; ring). clear X.
  destruct (2 * r ?= d) eqn:C.
  - apply Z.compare_eq in C. destruct (Z.even q); [rewrite A1|rewrite A2]; lia.
  - rewrite Z.compare_lt_iff in C. rewrite A1. lia.
  - rewrite Z.compare_gt_iff in C. rewrite A2. lia.
Qed.
Lemma rounded_pos : forall k m e, 0 <= rounded k m e.
Proof.
  intros k m e. unfold rounded, tens. assert (T : 0 < 10 ^ Z.of_nat k) by (apply Z.pow_pos_nonneg; lia). destruct (0 <=? e) eqn:E.
  - apply Z.leb_le in E. assert (0 < 2 ^ e) by (apply Z.pow_pos_nonneg; lia). nia.
  - apply Z.leb_gt in E. assert (D : 0 < 2 ^ (- e)) by (apply Z.pow_pos_nonneg; lia). assert (Q : 0 <= Z.pos m * 10 ^ Z.of_nat k / 2 ^ (- e)) by (apply Z.div_pos; nia).
    destruct (2 * (Z.pos m * 10 ^ Z.of_nat k mod 2 ^ (- e)) ?= 2 ^ (- e)); [destruct (Z.even _)| |]; lia.
Qed.
Lemma zord_digit : forall d, 0 <= d < 10 -> zord (digit d) = 48 + d.
Proof. intros d H. unfold digit. apply zord_chr. lia. Qed.
Lemma number_snoc : forall s c, number (s ++ [c]) = 10 * number s + (zord c - 48).
Proof. intros. unfold number. rewrite fold_left_app. reflexivity. Qed.
Lemma decimals_ok : forall k n, 0 <= n -> List.length (decimals k n) = k /\ digits (decimals k n) /\ number (decimals k n) = n mod 10 ^ Z.of_nat k.
Proof.
  induction k as [|k IH]; intros n H.
  - split; [reflexivity|]. split; [intros c []|]. cbn. symmetry. apply Z.mod_1_r.
  - cbn [decimals]. destruct (IH (n / 10)) as (I1 & I2 & I3); [apply Z.div_pos; lia|]. assert (M := Z.mod_pos_bound n 10 ltac:(lia)). split; [rewrite app_length, I1; cbn; lia|]. split.
    + intros c J. apply in_app_iff in J. destruct J as [J|[<-|[]]]; [apply I2; exact J|]. rewrite zord_digit by lia. lia.
    + rewrite number_snoc, I3, zord_digit by lia. rewrite Nat2Z.inj_succ, Z.pow_succ_r by lia. rewrite Z.rem_mul_r by (try apply Z.pow_nonzero; try apply Z.pow_pos_nonneg; lia). lia.
Qed.
Lemma fixed_ok : forall k n, 0 <= n -> written_with k n (fixed k n).
Proof.
  intros k n H. unfold fixed, tens, written_with. assert (T : 0 < 10 ^ Z.of_nat k) by (apply Z.pow_pos_nonneg; lia). exists (n / 10 ^ Z.of_nat k), (decimals k (n mod 10 ^ Z.of_nat k)).
  assert (M := Z.mod_pos_bound n _ T). destruct (decimals_ok k (n mod 10 ^ Z.of_nat k)) as (I1 & I2 & I3); [lia|]. split; [reflexivity|]. split; [apply Z.div_pos; lia|]. split; [exact I1|]. split; [exact I2|].
  rewrite I3, Z.mod_mod by lia. assert (E := Z.div_mod n (10 ^ Z.of_nat k) ltac:(lia)). rewrite (Z.mul_comm (n / 10 ^ Z.of_nat k)). exact E.
Qed.
Lemma absolute_ok : forall k f, shows k f (absolute k f).
Proof.
  intros k [s|s| |s m e]; cbn [shows absolute]; try reflexivity; [apply fixed_ok; lia|]. exists (rounded k m e). split; [apply rounded_nearest|apply fixed_ok, rounded_pos].
Qed.
Lemma negative_ok : forall f, if negative f then minus f else ~ minus f.
Proof. intros [[]|[]| |[] m e]; cbn; auto; discriminate. Qed.
Lemma equity_ok : forall f, shows_equity f (signed_one_three f).
Proof.
  intros f. exists (absolute 3 f). split; [apply absolute_ok|]. unfold signed_one_three. assert (N := negative_ok f). destruct (negative f); [left|right]; split; auto.
Qed.
Lemma chance_ok : forall f, shows_chance f (percent_two_one f).
Proof.
  intros f. exists (absolute 1 f). split; [apply absolute_ok|]. unfold percent_two_one. assert (N := negative_ok f). destruct (negative f); [left|right]; split; auto.
Qed.
Lemma nonzero_ok : forall f, if nonzero f then ~ is_zero f else is_zero f.
Proof. intros [s|s| |s m e]; cbn; try (intros [s' E]; discriminate E). exists s. reflexivity. Qed.
(* ---- values ---- *)
Lemma whole_int : forall v z, whole v z <-> int_of v = Ok z.
Proof.
  intros v z. split.
  - intros [->|[[-> ->]|[-> ->]]]; reflexivity.
  - destruct v as [y|[]| | |]; cbn; intro H; try discriminate H; injection H as <-; [left; reflexivity|right; left; auto|right; right; auto].
Qed.
Lemma whole_eq : forall v z y, whole v z -> eq_int v y = (z =? y).
Proof. intros v z y [->|[[-> ->]|[-> ->]]]; reflexivity. Qed.
Lemma truth_ok : forall v, truth v = true <-> ~ false_value v.
Proof.
  assert (F : forall v, truth v = false <-> false_value v).
  { intros v. split.
    - destruct v as [z|[]|f|[|c s]|]; cbn; intro H; try discriminate H.
      + right; right; left. destruct (z =? 0) eqn:E; [apply Z.eqb_eq in E; subst z; reflexivity|discriminate H].
      + right; left; reflexivity.
      + right; right; right; right. exists f. split; [reflexivity|]. assert (N := nonzero_ok f). rewrite H in N. exact N.
      + right; right; right; left; reflexivity.
      + left. reflexivity.
    - intros [->|[->|[->|[->|(f & -> & s & ->)]]]]; reflexivity. }
  intros v. rewrite <- F. destruct (truth v); split; congruence.
Qed.
Lemma call_ok : forall r, call r = Ok tt <-> callable r.
Proof.
  intros r. unfold call, callable. assert (S1 : forall a b : string, String.eqb a b = true <-> a = b) by (intros; apply String.eqb_eq). rewrite <- (dget_none String.eqb S1).
  destruct (dget String.eqb r "editor"); split; congruence.
Qed.
Lemma actual_ok : forall r b, (b = true <-> marked r) <-> b = truth (arg r "actual" VNone).
Proof.
  intros r b. assert (M : truth (arg r "actual" VNone) = true <-> marked r).
  { unfold arg, marked, has. destruct (dget String.eqb r "actual") as [v|] eqn:E.
    - rewrite truth_ok. split; [intro H; exists v; auto|intros (w & E' & H); congruence].
    - cbn. split; [discriminate|]. intros (w & E' & _). congruence. }
  rewrite <- M. destruct b, (truth (arg r "actual" VNone)); split; intuition congruence.
Qed.
Lemma even_odd_ok : forall b n, row_class b n (if b then L "actualrow" else even_odd n).
Proof.
  intros [|] n; cbn [row_class]; [reflexivity|]. unfold even_odd. rewrite Zmod_even. destruct (Z.even n); reflexivity.
Qed.
Lemma diff_ok : forall b a d, shows_diff b a d (match d with Some f => if nonzero f then L b ++ signed_one_three f ++ L a else [] | None => [] end).
Proof.
  intros b a [f|]; cbn [shows_diff]; [|reflexivity]. assert (N := nonzero_ok f). destruct (nonzero f); [right|left]; split; auto. exists (signed_one_three f). split; [apply equity_ok|reflexivity].
Qed.
(* ---- one move ---- *)
Definition move_pair (e : move_entry) : list (str * list WikiModel.cell) :=
  let klass := if m_actual e then L "actualrow" else even_odd (m_nth e) in
  [(klass, [th [("rowspan", L "2")] (py_str_int (m_nth e)); td [("rowspan", L "2")] (m_move e); td [("rowspan", L "2")] (py_str_int (m_ply e));
            td [("class", L "Equity"); ("colspan", L "6")] (signed_one_three (m_equity e) ++ L " " ++ match m_diff e with Some d => if nonzero d then L "(" ++ signed_one_three d ++ L ") " else [] | None => [] end)]);
   (klass, map (fun f => td [] (percent_two_one f)) (m_chances e))].
Lemma move_row_says : forall r e, says_move r e -> move_row r = Ok (move_pair e).
Proof.
  intros r [n mv p q d ch ac] (C & (vn & N1 & N2) & M & (vp & P1 & P2) & Q & D & Ch & A). cbn [m_nth m_move m_ply m_equity m_diff m_chances m_actual] in *.
  apply call_ok in C. apply whole_int in N2. apply whole_int in P2. apply actual_ok in A.
  unfold chances in Ch. repeat (match goal with H : Forall2 _ (_ :: _) _ |- _ => inversion H; clear H; subst | H : Forall2 _ [] _ |- _ => inversion H; clear H; subst end).
  unfold says_float, says_diff, has in *. unfold move_row. rewrite C. cbn [bind]. unfold need. rewrite N1, M, P1, Q, D. cbn [bind].
  repeat match goal with H : dget String.eqb r _ = Some (VFloat _) |- _ => rewrite H; clear H end. cbn [bind]. rewrite N2. cbn [bind text_of]. rewrite P2. cbn [bind float_of].
  destruct d as [d|]; cbn [float_or_none bind]; reflexivity.
Qed.
Lemma bind_ok : forall A B (m : res A) (k : A -> res B) b, bind m k = Ok b -> exists a, m = Ok a /\ k a = Ok b.
Proof. intros A B [a|e] k b H; [exists a; auto|discriminate H]. Qed.
Lemma need_ok : forall r n v, need r n = Ok v -> has r n v.
Proof. intros r n v. unfold need, has. destruct (dget String.eqb r n); congruence. Qed.
Lemma move_row_only : forall r rs, move_row r = Ok rs -> exists e, says_move r e.
Proof.
  intros r rs H. unfold move_row in H.
  repeat (let x := fresh "x" in let E := fresh "E" in apply bind_ok in H; destruct H as (x & E & H); cbv beta in H).
  repeat match goal with E : need _ _ = Ok _ |- _ => apply need_ok in E end.
  repeat match goal with E : float_of ?v = Ok ?f |- _ => assert (v = VFloat f) by (destruct v; cbn in E; congruence); subst v; clear E end.
  repeat match goal with E : text_of ?v = Ok ?f |- _ => assert (v = VText f) by (destruct v; cbn in E; congruence); subst v; clear E end.
  match goal with E : float_or_none ?v = Ok ?d |- _ => assert (v = match d with Some f => VFloat f | None => VNone end) by (destruct v; cbn in E; try discriminate E; injection E as <-; reflexivity); subst v; clear E end.
  match goal with E : call r = Ok ?u |- _ => destruct u; apply call_ok in E end.
  repeat match goal with E : int_of _ = Ok _ |- _ => apply whole_int in E end.
  match goal with
  | N : has r "nth" ?vn, Nw : whole ?vn ?n, M : has r "move" (VText ?mv), P : has r "ply" ?vp, Pw : whole ?vp ?p, Q : has r "equity" (VFloat ?q), D : has r "diff" (match ?d with Some _ => _ | None => _ end),
    W1 : has r "Win" (VFloat ?w1), W2 : has r "WinG" (VFloat ?w2), W3 : has r "WinBg" (VFloat ?w3), L1 : has r "Lose" (VFloat ?l1), L2 : has r "LoseG" (VFloat ?l2), L3 : has r "LoseBg" (VFloat ?l3) |- _ =>
      exists (mkmove n mv p q d [w1; w2; w3; l1; l2; l3] (truth (arg r "actual" VNone)));
      split; [assumption|]; split; [exists vn; split; assumption|]; split; [assumption|]; split; [exists vp; split; assumption|]; split; [assumption|]; split; [assumption|]; split;
      [repeat (constructor; [assumption|]); constructor|apply actual_ok; reflexivity]
  end.
Qed.
Lemma numbered_rows : forall A (nth : A -> Z) (says : row -> A -> Prop) f (out : A -> list (str * list WikiModel.cell)) i rows es,
  (forall r e, says r e -> says_int r "nth" (nth e)) -> (forall r e, says r e -> f r = Ok (out e)) ->
  Forall2 says rows es -> counted nth (i + 1) es -> each_row f i rows = Ok (flat_map out es).
Proof.
  intros A nth says f out i rows es Sn Sf F. revert i. induction F as [|r e rows es S1 F IH]; intros i C; [reflexivity|]. destruct C as [C1 C2]. cbn [each_row flat_map].
  destruct (Sn r e S1) as (v & H1 & H2). unfold has in H1. rewrite H1. cbn [bind]. rewrite (whole_eq v (nth e)) by exact H2. rewrite C1, Z.eqb_refl. cbn [passert bind].
  rewrite (Sf r e S1). cbn [bind]. rewrite IH by exact C2. reflexivity.
Qed.
Lemma rows_numbered : forall A (nth : A -> Z) (says : row -> A -> Prop) f,
  (forall r e, says r e -> says_int r "nth" (nth e)) -> (forall r out, f r = Ok out -> exists e, says r e) ->
  forall rows i out, each_row f i rows = Ok out -> exists es, Forall2 says rows es /\ counted nth (i + 1) es.
Proof.
  intros A nth says f Sn Sf. induction rows as [|r rows IH]; intros i out H; [exists []; split; [constructor|exact I]|]. cbn [each_row] in H.
  apply bind_ok in H. destruct H as (v & V & H). apply bind_ok in H. destruct H as (u & U & H). apply bind_ok in H. destruct H as (a & Fa & H). apply bind_ok in H. destruct H as (b & Fb & H).
  destruct (Sf r a Fa) as (e & S1). destruct (IH _ _ Fb) as (es & F & C). exists (e :: es). split; [constructor; assumption|]. cbn [counted]. split; [|exact C].
  destruct (Sn r e S1) as (v' & H1 & H2). unfold has in H1. rewrite H1 in V. injection V as <-. rewrite (whole_eq v' (nth e)) in U by exact H2. destruct (nth e =? i + 1) eqn:E; [apply Z.eqb_eq in E; exact E|discriminate U].
Qed.
Lemma moves_shown : forall es, shows_moves es (flat_map move_pair es).
Proof.
  induction es as [|[n mv p q d ch ac] es IH]; [exact I|]. cbn [flat_map move_pair app shows_moves]. split; [|exact IH]. split; [apply even_odd_ok|]. split; [reflexivity|]. split.
  - do 2 eexists. split; [reflexivity|]. split; [apply equity_ok|apply diff_ok].
  - cbn [m_chances texts snd]. induction ch as [|c ch I2]; [constructor|]. cbn [map]. constructor; [apply chance_ok|exact I2].
Qed.
Lemma same_length : forall A B (R : A -> B -> Prop) l l', Forall2 R l l' -> List.length l = List.length l'.
Proof. intros A B R l l' H. induction H; cbn; congruence. Qed.
Lemma six_chances : forall r e, says_move r e -> List.length (m_chances e) = 6%nat.
Proof. intros r e (_ & _ & _ & _ & _ & _ & H & _). apply same_length in H. symmetry. exact H. Qed.
Lemma moves_rectangle : forall rows es, Forall2 says_move rows es -> rectangle 9 [] (flat_map move_pair es).
Proof.
  intros rows es F. induction F as [|r e rows es H F IH]; [reflexivity|]. assert (N := six_chances r e H). destruct e as [n mv p q d ch ac]. cbn [m_chances] in N.
  destruct ch as [|c1 [|c2 [|c3 [|c4 [|c5 [|c6 [|]]]]]]]; try discriminate N. cbn [flat_map move_pair app rectangle]. split; [reflexivity|]. split; [reflexivity|]. exact IH.
Qed.
Lemma gid_parts : forall pid mid : str, List.length pid = 14%nat -> List.length mid = 12%nat ->
  firstn 14 (pid ++ L ":" ++ mid) = pid /\ firstn 12 (skipn 15 (pid ++ L ":" ++ mid)) = mid.
Proof.
  intros pid mid H1 H2. split.
  - rewrite firstn_app, H1, Nat.sub_diag, firstn_O, app_nil_r. rewrite <- H1. apply firstn_all.
  - rewrite skipn_app, H1. replace (skipn 15 pid) with (@nil ascii) by (symmetry; apply skipn_all2; lia). cbn [app Nat.sub L list_ascii_of_string skipn]. rewrite <- H2. apply firstn_all.
Qed.
Lemma analysis_moves : forall db pid mid rows, List.length pid = 14%nat -> List.length mid = 12%nat -> db pid mid = Ok (false, rows) ->
  (forall es, Forall2 says_move rows es -> counted m_nth 1 es ->
     exists h1 h2 body, analysis_tables db (pid ++ L ":" ++ mid) = Ok [WikiModel.mktable (L "move") (h1 :: h2 :: body)]
       /\ heading h1 ["#"; "move"; "Ply"; "Eq.(diff)"] /\ heading h2 chances /\ shows_moves es body /\ rectangle 9 [] (h1 :: h2 :: body))
  /\ (forall ts, analysis_tables db (pid ++ L ":" ++ mid) = Ok ts -> exists es, Forall2 says_move rows es /\ counted m_nth 1 es).
Proof.
  intros db pid mid rows H1 H2 D. destruct (gid_parts pid mid H1 H2) as [G1 G2]. unfold analysis_tables. rewrite G1, G2, D. cbn [bind]. split.
  - intros es F C. rewrite (numbered_rows _ m_nth says_move move_row move_pair 0 rows es); [|intros r e S1; apply S1|apply move_row_says|exact F|exact C]. cbn [bind].
    exists (nth 0 move_header (L "", [])), (nth 1 move_header (L "", [])), (flat_map move_pair es). split; [reflexivity|]. split; [split; [reflexivity|split; [reflexivity|repeat constructor]]|].
    split; [split; [reflexivity|split; [reflexivity|repeat constructor]]|]. split; [apply moves_shown|]. cbn [rectangle]. split; [reflexivity|]. split; [reflexivity|]. apply (moves_rectangle rows es F).
  - intros ts H. apply bind_ok in H. destruct H as (out & H & _). exact (rows_numbered _ m_nth says_move move_row (fun r e S1 => proj1 (proj2 S1)) move_row_only rows 0 out H).
Qed.
(* ---- cube actions ---- *)
Definition cube_line (e : cube_entry) : list (str * list WikiModel.cell) :=
  [(if c_actual e then L "actualrow" else even_odd (c_nth e),
    [th [] (py_str_int (c_nth e)); td [] (nth (Z.to_nat (c_action e)) CUBEACTION_STRINGS []); td [] (signed_one_three (c_equity e));
     td [] (match c_diff e with Some d => if nonzero d then L "" ++ signed_one_three d ++ L "" else [] | None => [] end)])].
Definition says_known (r : row) (e : cube_entry) : Prop := says_cube r e /\ 0 <= c_action e <= 3.
Lemma cube_row_says : forall r e, says_known r e -> cubeaction_row r = Ok (cube_line e).
Proof.
  intros r [n a q d ac] [(C & (vn & N1 & N2) & (va & A1 & A2) & Q & D & Ac) K]. cbn [c_nth c_action c_equity c_diff c_actual] in *.
  apply call_ok in C. apply whole_int in N2. unfold says_float, says_diff, has in *. unfold cubeaction_row. rewrite C. cbn [bind]. unfold arg. rewrite N1. cbn [bind]. rewrite N2. cbn [bind].
  assert (V : (match dget String.eqb r "actual" with Some v => v | None => VBool false end) = VBool ac).
  { destruct Ac as [->|[Ac ->]]; [reflexivity|]. apply (dget_none String.eqb (fun a b => String.eqb_eq a b)) in Ac. rewrite Ac. reflexivity. }
  rewrite V, Q, D, A1. replace (existsb (eq_int (VBool ac)) CUBEACTION_TYPES) with true by (destruct ac; reflexivity). cbn [passert bind float_of truth].
  assert (T : action_text va = Ok (nth (Z.to_nat a) CUBEACTION_STRINGS [])).
  { assert (a = 0 \/ a = 1 \/ a = 2 \/ a = 3) as Ha by lia. destruct A2 as [->|[[-> ->]|[-> ->]]]; [|reflexivity|reflexivity]. destruct Ha as [->|[->|[->| ->]]]; reflexivity. }
  destruct d as [d|]; cbn [float_or_none bind]; rewrite T; cbn [bind]; unfold cube_line; cbn [c_nth c_action c_equity c_diff c_actual]; [|reflexivity].
  destruct (nonzero d); [|reflexivity]. cbn [L list_ascii_of_string app]. rewrite app_nil_r. reflexivity.
Qed.
Lemma cube_shown : forall e, 0 <= c_action e <= 3 -> exists a, cube_line e = [a] /\ shows_cube e a.
Proof.
  intros [n a q d ac] K. cbn [c_action] in K. eexists. split; [reflexivity|]. split; [apply even_odd_ok|]. do 3 eexists. split; [reflexivity|]. split; [|split; [apply equity_ok|apply diff_ok]].
  cbn [c_action]. assert (a = 0 \/ a = 1 \/ a = 2 \/ a = 3) as [->|[->|[->| ->]]] by lia; unfold action_name; cbn; intuition.
Qed.
Lemma cubeless_says : forall r e, says_equity r e -> exists h1 h2 a b, cubeless r = Ok (WikiModel.mktable (L "cubeless") [h1; h2; a; b])
  /\ heading h1 ["Ply"; "Cubeless Eq. "] /\ heading h2 chances
  /\ (exists t u, texts a = [py_str_int (q_ply e); t ++ L " (Money " ++ u ++ L ")"] /\ shows_equity (q_cubeless e) t /\ shows_equity (q_money e) u)
  /\ Forall2 shows_chance (q_chances e) (texts b) /\ rectangle 7 [] [h1; h2; a; b].
Proof.
  intros r [p q mo ch] (C & (vp & P1 & P2) & Q & M & Ch). cbn [q_ply q_cubeless q_money q_chances] in *. apply call_ok in C. apply whole_int in P2.
  unfold chances in Ch. repeat (match goal with H : Forall2 _ (_ :: _) _ |- _ => inversion H; clear H; subst | H : Forall2 _ [] _ |- _ => inversion H; clear H; subst end).
  unfold says_float, has in *. unfold cubeless. rewrite C. cbn [bind]. unfold arg. rewrite P1, Q, M. cbn [bind]. rewrite P2. cbn [bind float_of].
  repeat match goal with H : dget String.eqb r _ = Some (VFloat _) |- _ => rewrite H; clear H end. cbn [bind float_of].
  do 4 eexists. split; [reflexivity|]. split; [split; [reflexivity|split; [reflexivity|repeat constructor]]|]. split; [split; [reflexivity|split; [reflexivity|repeat constructor]]|]. split.
  - do 2 eexists. split; [reflexivity|]. split; apply equity_ok.
  - split; [repeat (constructor; [apply chance_ok|]); constructor|]. repeat (split; [reflexivity|]). reflexivity.
Qed.
Lemma analysis_cube : forall db pid mid r rows q es, List.length pid = 14%nat -> List.length mid = 12%nat -> db pid mid = Ok (true, r :: rows) ->
  says_equity r q -> Forall2 says_cube rows es -> counted c_nth 1 es -> (forall e, In e es -> 0 <= c_action e <= 3) ->
  exists h1 h2 a b h body, analysis_tables db (pid ++ L ":" ++ mid) = Ok [WikiModel.mktable (L "cubeless") [h1; h2; a; b]; WikiModel.mktable (L "cubeaction") (h :: body)]
    /\ heading h1 ["Ply"; "Cubeless Eq. "] /\ heading h2 chances
    /\ (exists t u, texts a = [py_str_int (q_ply q); t ++ L " (Money " ++ u ++ L ")"] /\ shows_equity (q_cubeless q) t /\ shows_equity (q_money q) u)
    /\ Forall2 shows_chance (q_chances q) (texts b) /\ rectangle 7 [] [h1; h2; a; b]
    /\ heading h ["#"; "action"; " Cubeful Eq. "] /\ Forall2 shows_cube es body /\ rectangle 4 [] (h :: body).
Proof.
  intros db pid mid r rows q es H1 H2 D Sq F C K. destruct (gid_parts pid mid H1 H2) as [G1 G2]. unfold analysis_tables. rewrite G1, G2, D. cbn [bind].
  destruct (cubeless_says r q Sq) as (h1 & h2 & a & b & E & T1 & T2 & T3 & T4 & T5). rewrite E. cbn [bind].
  assert (F' : Forall2 says_known rows es) by (clear C D; induction F as [|x e rows es S1 F IH]; [constructor|]; constructor; [split; [exact S1|apply K; left; reflexivity]|apply IH; intros e' J; apply K; right; exact J]).
  rewrite (numbered_rows _ c_nth says_known cubeaction_row cube_line 0 rows es); [|intros x e S1; apply S1|apply cube_row_says|exact F'|exact C]. cbn [bind].
  exists h1, h2, a, b, (nth 0 cubeaction_header (L "", [])), (flat_map cube_line es). split; [reflexivity|]. split; [exact T1|]. split; [exact T2|]. split; [exact T3|]. split; [exact T4|]. split; [exact T5|].
  split; [split; [reflexivity|split; [reflexivity|repeat constructor]]|]. split.
  - clear -K. induction es as [|e es IH]; [constructor|]. cbn [flat_map]. destruct (cube_shown e (K e (or_introl eq_refl))) as (x & -> & S1). cbn [app]. constructor; [exact S1|]. apply IH. intros e' J. apply K. right. exact J.
  - cbn [rectangle]. split; [reflexivity|]. clear -es. change (next_down [] (snd (nth 0 cubeaction_header (L "", [])))) with (@nil (Z * Z)).
    induction es as [|[n c f d ac] es IH]; [reflexivity|]. cbn [flat_map cube_line app rectangle]. split; [reflexivity|exact IH].
Qed.
(* an action that is none of the four is shown as one of them *)
Lemma analysis_refuted : exists db pid mid r r' q e ts,
  List.length pid = 14%nat /\ List.length mid = 12%nat /\ db pid mid = Ok (true, [r; r']) /\ says_equity r q /\ says_cube r' e /\ c_nth e = 1
  /\ c_action e = -1 /\ analysis_tables db (pid ++ L ":" ++ mid) = Ok ts
  /\ exists t h a, ts = [t; WikiModel.mktable (L "cubeaction") [h; a]] /\ nth 1 (texts a) [] = L "Too good to double".
Proof.
  pose (z := VFloat (S754_zero false)).
  exists (fun _ _ => Ok (true, [[("ply", VInt 2); ("cubeless", z); ("money", z); ("Win", z); ("WinG", z); ("WinBg", z); ("Lose", z); ("LoseG", z); ("LoseBg", z)]; [("nth", VInt 1); ("action", VInt (-1)); ("equity", z); ("diff", VNone)]])).
  exists (L "vzsAAFhu2xFABA"), (L "QYkqASAAIAAA"), [("ply", VInt 2); ("cubeless", z); ("money", z); ("Win", z); ("WinG", z); ("WinBg", z); ("Lose", z); ("LoseG", z); ("LoseBg", z)],
    [("nth", VInt 1); ("action", VInt (-1)); ("equity", z); ("diff", VNone)], (mkequity 2 (S754_zero false) (S754_zero false) (repeat (S754_zero false) 6)), (mkcube 1 (-1) (S754_zero false) None false).
  eexists. split; [reflexivity|]. split; [reflexivity|]. split; [reflexivity|]. split.
  { split; [intro J; cbn in J; intuition discriminate|]. split; [exists (VInt 2); split; [reflexivity|left; reflexivity]|]. split; [reflexivity|]. split; [reflexivity|]. repeat constructor. }
  split.
  { split; [intro J; cbn in J; intuition discriminate|]. split; [exists (VInt 1); split; [reflexivity|left; reflexivity]|]. split; [exists (VInt (-1)); split; [reflexivity|left; reflexivity]|]. split; [reflexivity|].
    split; [reflexivity|]. right. split; [intro J; cbn in J; intuition discriminate|reflexivity]. }
  split; [reflexivity|]. split; [reflexivity|]. split; [vm_compute; reflexivity|]. do 3 eexists. split; reflexivity.
Qed.
