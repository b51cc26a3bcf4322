(* The tables of an analysis can be written, whatever the numbers are, if the moves can *)
From Verif Require Import Py PyFacts Dict DictFacts HtmlSpec TreeModel TreeSpec WikiModel WikiSpec WellSpec WikiInv WikiWell AnalysisModel AnalysisSpec AnalysisProofs.
From Verif Require XmlSpec WikiKeep.
From Coq Require Import Floats.SpecFloat Permutation.
Open Scope string_scope.
Open Scope list_scope.
Open Scope Z_scope.

Definition tame_char (c : ascii) : bool := XmlSpec.legal c && negb (existsb (Ascii.eqb c) ["<"; ">"; "&"; quote]%char).
Definition tame (s : str) : Prop := forallb tame_char s = true.
Definition fit_text (s : str) : Prop := legal_text s /\ plain s /\ references s.
Lemma tame_chars : forall s, tame s -> forall c, In c s -> XmlSpec.legal c = true /\ c <> "<"%char /\ c <> ">"%char /\ c <> "&"%char /\ c <> quote.
Proof.
  intros s T c J. unfold tame in T. rewrite forallb_forall in T. specialize (T c J). apply andb_prop in T. destruct T as [T1 T2]. split; [exact T1|]. apply negb_true_iff in T2.
  assert (N : forall x, In x ["<"; ">"; "&"; quote]%char -> c <> x) by (intros x Ix ->; assert (existsb (Ascii.eqb x) ["<"; ">"; "&"; quote]%char = true) by (apply existsb_exists; exists x; split; [exact Ix|apply Ascii.eqb_refl]); congruence).
  repeat split; apply N; cbn; tauto.
Qed.
Lemma tame_fit : forall s, tame s -> fit_text s.
Proof.
  intros s T. assert (C := tame_chars s T). split; [intros c J; apply C, J|]. split; [intros c J; split; apply C, J|]. apply references_none. intro J. apply C in J. tauto.
Qed.
Lemma tame_quiet : forall s, tame s -> legal_text s /\ quiet s.
Proof. intros s T. assert (C := tame_chars s T). split; [intros c J; apply C, J|]. intro J. apply C in J. tauto. Qed.
Lemma tame_app : forall a b, tame a -> tame b -> tame (a ++ b).
Proof. intros a b Ha Hb. unfold tame in *. rewrite forallb_app, Ha, Hb. reflexivity. Qed.
Lemma tame_uint : forall u, tame (chars_of_uint u).
Proof. induction u; try reflexivity; exact IHu. Qed.
Lemma tame_int : forall n, tame (py_str_int n).
Proof. intros n. unfold py_str_int. destruct (Z.to_int n) as [u|u]; [apply tame_uint|]. apply (tame_app (L "-")); [reflexivity|apply tame_uint]. Qed.
Lemma tame_digit : forall d, 0 <= d < 10 -> tame [digit d].
Proof. intros d H. assert (d = 0 \/ d = 1 \/ d = 2 \/ d = 3 \/ d = 4 \/ d = 5 \/ d = 6 \/ d = 7 \/ d = 8 \/ d = 9) as E by lia. repeat (destruct E as [->|E]; [reflexivity|]). rewrite E. reflexivity. Qed.
Lemma tame_decimals : forall k n, tame (decimals k n).
Proof. induction k as [|k IH]; intros n; [reflexivity|]. cbn [decimals]. apply tame_app; [apply IH|]. apply tame_digit. apply Z.mod_pos_bound. lia. Qed.
Lemma tame_absolute : forall k f, tame (absolute k f).
Proof. intros k [s|s| |s m e]; try reflexivity; apply tame_app; try apply tame_int; apply (tame_app (L ".")); try reflexivity; apply tame_decimals. Qed.
Lemma tame_equity : forall f, tame (signed_one_three f).
Proof. intros f. unfold signed_one_three. apply tame_app; [destruct (negative f); reflexivity|apply tame_absolute]. Qed.
Lemma tame_chance : forall f, tame (percent_two_one f).
Proof. intros f. unfold percent_two_one. apply tame_app; [destruct (negative f); reflexivity|apply tame_absolute]. Qed.

(* cells with attributes of these tables *)
Definition cell_attrs : list (list (string * str)) := [[]; [("rowspan", L "2")]; [("colspan", L "6")]; [("colspan", L "2")]; [("class", L "Equity"); ("colspan", L "6")]].
Definition cell_fit (c : cell) : Prop := fit_text (ctext c) /\ In (cattrs c) cell_attrs.
Definition row_fit (r : str * list cell) : Prop := tame (fst r) /\ Forall cell_fit (snd r).
Lemma rows_fit : forall k rs, tame k -> Forall row_fit rs -> table_fit (mktable k rs).
Proof.
  intros k rs Hk F. split; [apply tame_quiet, Hk|]. split; [apply tame_quiet, Hk|]. cbn [rows]. intros r J. rewrite Forall_forall in F. destruct (F r J) as [F1 F2]. split; [apply tame_quiet, F1|]. split; [apply tame_quiet, F1|].
  intros c Jc. rewrite Forall_forall in F2. destruct (F2 c Jc) as [(T1 & T2 & T3) A]. split; [exact T1|]. split; [exact T2|]. split; [exact T3|].
  destruct A as [E|[E|[E|[E|[E|[]]]]]]; rewrite <- E; (split; [repeat constructor; cbn; intuition discriminate|]); intros q v Jq; cbn in Jq; repeat (destruct Jq as [Jq|Jq]; [injection Jq as <- <-|]); try destruct Jq.
  all: split; [split; [discriminate|apply forallb_forall; reflexivity]|]; split; [reflexivity|]; apply tame_quiet; reflexivity.
Qed.
Lemma cell_in : forall h a s, fit_text s -> In a cell_attrs -> cell_fit (mkcell h a s).
Proof. intros. split; assumption. Qed.
Ltac cells := repeat (constructor; [apply cell_in; [|cbn; tauto]|]); [..|constructor].
Lemma header_fit : Forall row_fit (cubeaction_header ++ move_header).
Proof. cbn [cubeaction_header move_header app]. repeat (constructor; [split; [reflexivity|cells; apply tame_fit; reflexivity]|]). constructor. Qed.
Lemma even_odd_tame : forall (b : bool) n, tame (if b then L "actualrow" else even_odd n).
Proof. intros b n. unfold even_odd. destruct b; [reflexivity|]. destruct (n mod 2 =? 0); reflexivity. Qed.
Lemma diff_tame : forall b a d, tame (L b) -> tame (L a) -> tame (match d with Some f => if nonzero f then L b ++ signed_one_three f ++ L a else [] | None => [] end).
Proof. intros b a [f|] Hb Ha; [|reflexivity]. destruct (nonzero f); [|reflexivity]. apply tame_app; [exact Hb|]. apply tame_app; [apply tame_equity|exact Ha]. Qed.
Lemma move_fit : forall r rs, (forall s, has r "move" (VText s) -> fit_text s) -> move_row r = Ok rs -> Forall row_fit rs.
Proof.
  intros r rs M H. destruct (move_row_only r rs H) as (e & S1). rewrite (move_row_says r e S1) in H. injection H as <-. destruct S1 as (_ & _ & Mv & _). apply M in Mv.
  unfold move_pair. constructor; [|constructor; [|constructor]]; (split; [apply even_odd_tame|]); cbn [snd].
  - cells; try (apply tame_fit, tame_int); [exact Mv|]. apply tame_fit. apply tame_app; [apply tame_equity|]. apply (tame_app (L " ")); [reflexivity|]. apply (diff_tame "(" ") "); reflexivity.
  - apply Forall_forall. intros c J. apply in_map_iff in J. destruct J as (f & <- & _). apply cell_in; [apply tame_fit, tame_chance|cbn; tauto].
Qed.
Lemma action_fit : forall v s, action_text v = Ok s -> fit_text s.
Proof.
  assert (P : forall z s, pyget CUBEACTION_STRINGS z = Ok s -> fit_text s).
  { intros z s H. apply tame_fit. unfold pyget in H. destruct (pyix CUBEACTION_STRINGS z) as [i|]; [|discriminate H]. destruct i as [|[|[|[|[|i]]]]]; cbn in H; try discriminate H; injection H as <-; reflexivity. }
  intros [z|b|f|t|] s H; try discriminate H; exact (P _ _ H).
Qed.
Lemma cube_fit : forall r rs, cubeaction_row r = Ok rs -> Forall row_fit rs.
Proof.
  intros r rs H. unfold cubeaction_row in H. repeat (let x := fresh "x" in let E := fresh "E" in apply bind_ok in H; destruct H as (x & E & H); cbv beta in H). injection H as <-.
  constructor; [|constructor]. split; [apply even_odd_tame|]. cbn [snd]. cells; try (apply tame_fit; first [apply tame_int|apply tame_equity]).
  - match goal with E : action_text _ = Ok _ |- _ => exact (action_fit _ _ E) end.
  - apply tame_fit. match goal with |- tame (match ?d with Some _ => _ | None => _ end) => destruct d as [f|]; [destruct (nonzero f)|]; try reflexivity end. apply tame_equity.
Qed.
Lemma cubeless_fit : forall r t, cubeless r = Ok t -> table_fit t.
Proof.
  intros r t H. unfold cubeless in H. repeat (let x := fresh "x" in let E := fresh "E" in apply bind_ok in H; destruct H as (x & E & H); cbv beta in H). injection H as <-.
  apply rows_fit; [reflexivity|]. repeat (constructor; [split; [reflexivity|]; cbn [snd chance_header]|]); [..|constructor]; cells.
  all: apply tame_fit; try first [reflexivity|apply tame_int|apply tame_chance]. apply tame_app; [apply tame_equity|]. apply (tame_app (L " (Money ")); [reflexivity|]. apply tame_app; [apply tame_equity|reflexivity].
Qed.
Lemma each_fit : forall f, forall l i rs, (forall r out, In r l -> f r = Ok out -> Forall row_fit out) -> each_row f i l = Ok rs -> Forall row_fit rs.
Proof.
  intros f. induction l as [|r l IH]; intros i rs F H; [injection H as <-; constructor|]. cbn [each_row] in H. apply bind_ok in H. destruct H as (v & _ & H). apply bind_ok in H. destruct H as (u & _ & H).
  apply bind_ok in H. destruct H as (a & Fa & H). apply bind_ok in H. destruct H as (b & Fb & H). injection H as <-. apply Forall_app. split; [apply (F r a); [left; reflexivity|exact Fa]|]. apply (IH (i + 1) b); [|exact Fb].
  intros r' out J. apply F. right. exact J.
Qed.
Lemma analysis_fit : forall db, (forall pid mid rows r s, db pid mid = Ok (false, rows) -> In r rows -> has r "move" (VText s) -> legal_text s /\ plain s /\ references s) ->
  forall gid ts t, analysis_tables db gid = Ok ts -> In t ts -> table_fit t.
Proof.
  intros db M gid ts t H J. unfold analysis_tables in H. apply bind_ok in H. destruct H as ([[|] rows] & D & H).
  - destruct rows as [|r rows]; [discriminate H|]. apply bind_ok in H. destruct H as (t0 & T0 & H). apply bind_ok in H. destruct H as (rs & R & H). assert (E : [t0; mktable (L "cubeaction") (cubeaction_header ++ rs)] = ts) by congruence. rewrite <- E in J. clear E H. destruct J as [<-|[<-|[]]]; [exact (cubeless_fit r t0 T0)|].
    apply rows_fit; [reflexivity|]. assert (F := header_fit). apply Forall_app in F. apply Forall_app. split; [apply F|]. apply (each_fit cubeaction_row rows 0); [|exact R]. intros r' out _. apply cube_fit.
  - apply bind_ok in H. destruct H as (rs & R & H). assert (E : [mktable (L "move") (move_header ++ rs)] = ts) by congruence. rewrite <- E in J. clear E H. destruct J as [<-|[]].
    apply rows_fit; [reflexivity|]. assert (F := header_fit). apply Forall_app in F. apply Forall_app. split; [apply F|]. apply (each_fit move_row rows 0); [|exact R]. intros r' out Jr. apply move_fit. intros s Hs. exact (M _ _ _ _ _ D Jr Hs).
Qed.
(* ---- pages ---- *)
Lemma analysis_well : forall design_order wikipath now urlencode db rst,
  Permutation design_order design_names -> legal_text now -> plain now -> references now -> legal_text wikipath -> quiet wikipath -> (forall p, legal_text (urlencode p) /\ quiet (urlencode p)) ->
  (forall s o, legal_text s -> rst s = Ok o -> well_formed o) ->
  (forall pid mid rows r s, db pid mid = Ok (false, rows) -> In r rows -> has r "move" (VText s) -> legal_text s /\ plain s /\ references s) ->
  forall wiki out, legal_text wiki -> ~ quoted_label wiki -> ~ amp_url wiki -> html design_order wikipath now urlencode (analysis_tables db) rst wiki = Ok out -> well_formed out.
Proof. intros design_order wikipath now urlencode db rst H1 H2 H3 H4 H5 H6 H7 H8 H9. apply wiki_well; try assumption. apply analysis_fit. exact H9. Qed.
Lemma analysis_broken : exists db wiki out, (forall pid mid rows r s, db pid mid = Ok (false, rows) -> In r rows -> has r "move" (VText s) -> legal_text s /\ s = L "13/7 & 8/7")
  /\ wiki = L "[[Analysis(vzsAAFhu2xFABA:QYkqASAAIAAA)]]" /\ html design_names [] [] (fun _ => []) (analysis_tables db) (fun s => Ok []) wiki = Ok out /\ ~ well_formed out.
Proof.
  pose (z := VFloat (S754_zero false)). pose (mv := [("nth", VInt 1); ("move", VText (L "13/7 & 8/7")); ("ply", VInt 2); ("equity", z); ("diff", VNone); ("Win", z); ("WinG", z); ("WinBg", z); ("Lose", z); ("LoseG", z); ("LoseBg", z)]).
  exists (fun _ _ => Ok (false, [mv])), (L "[[Analysis(vzsAAFhu2xFABA:QYkqASAAIAAA)]]").
  destruct (html design_names [] [] (fun _ => []) (analysis_tables (fun _ _ => Ok (false, [mv]))) (fun s => Ok []) (L "[[Analysis(vzsAAFhu2xFABA:QYkqASAAIAAA)]]")) as [out|] eqn:E; [|vm_compute in E; discriminate E].
  exists out. split; [|split; [reflexivity|split; [reflexivity|]]].
  - intros pid mid rows r s H I Hs. injection H as <-. destruct I as [<-|[]]. assert (E2 : s = L "13/7 & 8/7") by (vm_compute in Hs; injection Hs as <-; reflexivity). split; [rewrite E2; apply WikiKeep.lg_list; reflexivity|exact E2].
  - assert (Ea : exists a b, out = a ++ "&"%char :: L " 8/7" ++ b).
    { vm_compute in E. injection E as <-. match goal with |- exists a b, ?o = _ => exists (firstn 364 o), (skipn 369 o) end. reflexivity. }
    destruct Ea as (a & b & ->). intro W. apply well_refers in W. destruct (W a (L " 8/7" ++ b) eq_refl) as (t & u & I & Et). cbn in I. repeat (destruct I as [<-|I]; [discriminate Et|]). destruct I.
Qed.
